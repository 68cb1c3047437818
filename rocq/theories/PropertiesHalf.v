(** Property C90 of properties.jsonl: a client that closes its direction. The calls: SpecHalf.v. *)
From Coq Require Import List Lia Bool.
From Verif Require Import Base Spec SpecTx SpecMsg SpecResp SpecHalf ModelUtil ModelState ModelTx ModelConn SpecConn ProofsBase ProofsMsg ProofsRMsg ProofsTalk ProofsHalf PropertiesConn PropertiesMsg PropertiesResp PropertiesEnd.

(** * C90 *)
(** A conversation in which the direction of the client is closed, any number of times, between the requests of a round and their
    responses. The calls return what they return, the callbacks run and the transactions are as they are without the closing. *)
Theorem C90_half_closed : forall e rounds, accepting e -> Forall good_round (map fst rounds) -> talk_fits e (map fst rounds) ->
  exists s, history e (half_conversation rounds) = (ROk (map half_result (half_conversation rounds)), s) /\
    conversation_events (e_cfg e) 0 (map fst rounds) (events s) /\
    (forall k m r, nth_error (exchanges (map fst rounds)) k = Some (m, r) ->
      if c_auto_destroy (e_cfg e) then tx_get (N.of_nat k) (s_txs s) = None
      else exists t, tx_get (N.of_nat k) (s_txs s) = Some t /\ asked m t /\ answered r t).
Proof. exact half_parsed. Qed.
Print Assumptions C90_half_closed.

(** The rounds of C56, with the client closed once, not at all, twice, ... *)
Definition half_rounds : list (round * nat) := combine ex_rounds [1; 0; 2; 1; 3; 1]%nat.
Example C90_ex : Forall good_round (map fst half_rounds) /\ map fst half_rounds = ex_rounds /\ (0 < length ex_rounds)%nat /\
  (forall e, In e [ok_env; destroying; flushing] -> accepting e /\ talk_fits e (map fst half_rounds)) /\
  existsb (fun o => match o with OpReqClose => true | _ => false end) (half_conversation half_rounds) = true.
Proof.
  assert (E : map fst half_rounds = ex_rounds) by (vm_compute; reflexivity). rewrite E. split; [exact ex_rounds_good|]. split; [reflexivity|]. split; [vm_compute; lia|]. split; [|vm_compute; reflexivity].
  intros e [<- | [<- | [<- | []]]]; (split; [|apply fitsb_sound; vm_compute; reflexivity]); [exact ex_accepting|exact destroying_accepts|exact flushing_accepts].
Qed.

(** * Closed inside a request *)
Definition half_report (l : list op) (m : message) (k : nat) :=
  let t := texts [m] in
  let '(rc, s) := history ok_env ([OpOpen; OpReq (pd_slice (firstn k t))] ++ l ++ [OpReq (pd_slice (skipn k t))]) in
  (rc, length (s_txs s), map (fun t => t_prog (x_req t)) (map snd (s_txs s))).
(** Closing the direction of the client inside the head of a request ends the request, but not the direction: bytes that are given to
    the parser afterwards are read as another request. *)
Theorem C90_inside_refuted :
  half_report [OpReqClose] msg1 20 = (ROk [None; Some SsData; None; Some SsData], 3%nat, [PComplete; PComplete; PNotStarted]) /\
  half_report [] msg1 20 = (ROk [None; Some SsData; Some SsData], 2%nat, [PComplete; PNotStarted]).
Proof. split; vm_compute; reflexivity. Qed.
Print Assumptions C90_inside_refuted.
