(** Property C91 of properties.jsonl: a user who removes transactions. The calls: SpecClear.v. *)
From Coq Require Import List Lia Bool.
From Verif Require Import Base Spec SpecTx SpecMsg SpecResp SpecClear ModelUtil ModelState ModelTx ModelConn SpecConn ProofsBase ProofsMsg ProofsRMsg ProofsTalk ProofsClear PropertiesConn PropertiesMsg PropertiesResp PropertiesEnd.

(** * C91 *)
(** A conversation after each round of which transactions of exchanges that are over are removed. Nothing else changes, and as the maximum
    counts the transactions that are still there, the conversation may be as long as it likes. *)
Theorem C91_removing_is_local : forall e rounds, accepting e -> Forall good_round (map fst rounds) -> clear_fits e rounds ->
  exists s, history e (clear_conversation rounds) = (ROk (map clear_result (clear_conversation rounds)), s) /\
    conversation_events (e_cfg e) 0 (map fst rounds) (events s) /\
    (forall k m r, nth_error (exchanges (map fst rounds)) k = Some (m, r) ->
      if c_auto_destroy (e_cfg e) || existsb (N.eqb (N.of_nat k)) (removed rounds) then tx_get (N.of_nat k) (s_txs s) = None
      else exists t, tx_get (N.of_nat k) (s_txs s) = Some t /\ asked m t /\ answered r t).
Proof. exact clear_parsed. Qed.
Print Assumptions C91_removing_is_local.

(** The rounds of C56, whose five exchanges are allowed only two transactions at a time. *)
Definition clear_rounds : list (round * list N) := combine ex_rounds [[1; 0]; [2]; [3]].
Definition two_allowed : env := ex_env (set_c_max_tx 2 config_default) (fun _ _ => SOk).
Fixpoint clearsb (cfg : config) (n live : N) (rs : list (round * list N)) : bool :=
  match rs with
  | [] => true
  | (r, l) :: rs =>
      let k := N.of_nat (length (rd_exchanges r)) in
      (live + k <=? c_max_tx cfg) && forallb (fun i => i <? n + k) l && clearsb cfg (n + k) (if c_auto_destroy cfg then 0 else live + k - N.of_nat (length l)) rs
  end.
Lemma clearsb_sound cfg rs : forall n live, clearsb cfg n live rs = true -> clears cfg n live rs.
Proof.
  induction rs as [|[r l] rs IH]; intros n live H; [exact I|]. cbn [clearsb] in H. rewrite !andb_true_iff in H. destruct H as ((A & B) & C). split; [now apply N.leb_le|]. split; [|now apply IH].
  intros i I. rewrite forallb_forall in B. now apply N.ltb_lt, B.
Qed.
Example C91_ex : map fst clear_rounds = ex_rounds /\ length (exchanges ex_rounds) = 5%nat /\ Forall good_round (map fst clear_rounds) /\
  accepting two_allowed /\ clear_fits two_allowed clear_rounds /\ ~ talk_fits two_allowed (map fst clear_rounds).
Proof.
  assert (E : map fst clear_rounds = ex_rounds) by (vm_compute; reflexivity). unfold clear_fits. rewrite E. split; [reflexivity|]. split; [vm_compute; reflexivity|]. split; [exact ex_rounds_good|].
  split; [split; [intros s ev; left; reflexivity|intros; reflexivity]|]. split.
  - assert (F : talk_fits ok_env ex_rounds) by (apply fitsb_sound; vm_compute; reflexivity). destruct F as (F1 & F2 & _). split; [exact F1|]. split; [exact F2|]. split; [|apply clearsb_sound; vm_compute; reflexivity].
    change (removed clear_rounds) with [1; 0; 2; 3]. repeat (constructor; [cbn; intuition discriminate|]). constructor.
  - intros (_ & _ & F). cbn in F. apply F. vm_compute. reflexivity.
Qed.

(** * Removed too early *)
Definition early_report (l : list op) :=
  let t := rtexts [rsp1] in
  let '(rc, s) := history ok_env ([OpOpen; OpReq (pd_slice (texts [msg1])); OpResp (pd_slice (firstn 60 t))] ++ l ++ [OpResp (pd_slice (skipn 60 t))]) in
  (rc, map (fun it => (fst it, t_prog (x_req (snd it)), t_prog (x_resp (snd it)), t_mlen (x_resp (snd it)))) (s_txs s), length (filter (fun ev => match ev_hook ev with HResponseComplete | HTransactionComplete => true | _ => false end) (events s))).
(** A transaction that is removed before its response has ended comes back blank, under the same index, and its completion callbacks
    do not run. *)
Theorem C91_too_early_refuted :
  early_report [] = (ROk [None; Some SsData; Some SsData; Some SsData], [(0, PComplete, PComplete, 5); (1, PNotStarted, PNotStarted, 0)], 2%nat) /\
  early_report [OpRemove 0] = (ROk [None; Some SsData; Some SsData; None; Some SsData], [(0, PNotStarted, PNotStarted, 0); (1, PNotStarted, PNotStarted, 0)], 0%nat).
Proof. split; vm_compute; reflexivity. Qed.
Print Assumptions C91_too_early_refuted.
