(** Vocabulary of the property statements about a user who removes transactions. *)
From Verif Require Import Base Spec SpecTx ModelUtil ModelState ModelTx ModelConn SpecMsg SpecResp.

(** Rounds of requests and responses; after each one some transactions are removed. *)
Definition clear_ops (x : round * list N) : list op := round_ops (fst x) ++ map OpRemove (snd x).
Definition clear_conversation (rs : list (round * list N)) : list op := OpOpen :: concat (map clear_ops rs).
Definition clear_result (o : op) : option sstate := match o with OpReq _ | OpResp _ => Some SsData | _ => None end.
Definition removed (rs : list (round * list N)) : list N := concat (map snd rs).
(** [n] exchanges are over and [live] of their transactions are still there. Only transactions of exchanges that are over are removed,
    and a round fits if those that are still there and its own together do not exceed the configured maximum. *)
Fixpoint clears (cfg : config) (n live : N) (rs : list (round * list N)) : Prop :=
  match rs with
  | [] => True
  | (r, l) :: rs =>
      let k := N.of_nat (length (rd_exchanges r)) in
      live + k <= c_max_tx cfg /\ (forall i, In i l -> i < n + k) /\ clears cfg (n + k) (if c_auto_destroy cfg then 0 else live + k - N.of_nat (length l)) rs
  end.
Definition clear_fits (e : env) (rs : list (round * list N)) : Prop :=
  Forall (fun x => blen (request_text (m_req (fst x))) <= c_field_limit (e_cfg e) /\
                   blen (block_text (trailer_of (m_content (fst x)))) + 2 <= c_field_limit (e_cfg e) /\
                   blen (head_text (snd x)) <= c_field_limit (e_cfg e) /\
                   blen (block_text (trailer_of (rp_content (snd x)))) + 2 <= c_field_limit (e_cfg e)) (exchanges (map fst rs)) /\
  N.of_nat (length (exchanges (map fst rs))) < 2 ^ 64 /\ NoDup (removed rs) /\ clears (e_cfg e) 0 0 rs.
