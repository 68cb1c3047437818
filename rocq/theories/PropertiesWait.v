(** Property C94 of properties.jsonl: closing while responses are awaited. The calls: SpecWait.v. *)
From Coq Require Import List Lia Bool.
From Verif Require Import Base Spec SpecTx SpecMsg SpecResp SpecFlow SpecIdle SpecPause SpecWait ModelUtil ModelState ModelTx ModelConn SpecConn ProofsBase ProofsMsg ProofsRMsg ProofsTalk ProofsIdle ProofsPause ProofsWait PropertiesConn PropertiesMsg PropertiesResp PropertiesEnd PropertiesCut PropertiesIdle PropertiesPause.

(** * C94 *)
(** A conversation in which the connection is closed, any number of times, after the requests of any round and again after their
    responses. If closing does not flush, every call returns, the callbacks run and the transactions are as they are if it is never closed.
    (If it does, no close is allowed before the responses.) *)
Theorem C94_closing_before_responses : forall e rounds, Forall (may_wait e) rounds -> accepting e -> Forall good_round (map fst rounds) -> talk_fits e (map fst rounds) ->
  exists s, history e (wait_conversation rounds) = (ROk (map idle_result (wait_conversation rounds)), s) /\
    conversation_events (e_cfg e) 0 (map fst rounds) (events s) /\
    (forall k m r, nth_error (exchanges (map fst rounds)) k = Some (m, r) ->
      if c_auto_destroy (e_cfg e) then tx_get (N.of_nat k) (s_txs s) = None
      else exists t, tx_get (N.of_nat k) (s_txs s) = Some t /\ asked m t /\ answered r t).
Proof. exact wait_parsed. Qed.
Print Assumptions C94_closing_before_responses.

(** The rounds of C56, closed before and after the responses of each. *)
Definition wait_rounds : list (round * (list op * list op)) := combine ex_rounds [(pause_list, pause_list); ([OpClose; OpClose], []); (idle_list, [OpClose])].
Example C94_ex : map fst wait_rounds = ex_rounds /\ (1 < length ex_rounds)%nat /\ Forall good_round (map fst wait_rounds) /\
  (forall e, In e [ok_env; destroying] -> accepting e /\ Forall (may_wait e) wait_rounds /\ talk_fits e (map fst wait_rounds)).
Proof.
  assert (E : map fst wait_rounds = ex_rounds) by (vm_compute; reflexivity). rewrite E. split; [reflexivity|]. split; [vm_compute; lia|]. split; [exact ex_rounds_good|].
  assert (M : forall e, c_flush (e_cfg e) = false -> Forall (may_wait e) wait_rounds).
  { intros e Nf. assert (I : Forall pausing_op pause_list) by (unfold pause_list; repeat (apply Forall_cons; [first [apply pausing_close | apply pausing_idle; constructor; reflexivity]|]); constructor).
    assert (W : forall l, Forall pausing_op l -> Forall (waiting_op e) l) by (intro l; apply Forall_impl; intros o [o' Io|]; [now apply waiting_idle|now apply waiting_close]).
    assert (X : map snd wait_rounds = [(pause_list, pause_list); ([OpClose; OpClose], []); (idle_list, [OpClose])]) by (vm_compute; reflexivity).
    apply Forall_forall. intros x Hx. apply (in_map snd) in Hx. rewrite X in Hx. unfold may_wait.
    destruct Hx as [<- | [<- | [<- | []]]]; cbn [fst snd]; (split; [apply W|]); try exact I; try (unfold idle_list; repeat (apply Forall_cons; [first [apply pausing_close | apply pausing_idle; constructor; reflexivity]|]); constructor). }
  intros e [<- | [<- | []]]; (split; [|split; [apply M; vm_compute; reflexivity|apply fitsb_sound; vm_compute; reflexivity]]); [exact ex_accepting|exact destroying_accepts].
Qed.

(** * With flushing *)
Definition early_close (e : env) (n : nat) :=
  let '(rc, s) := history e ([OpOpen; OpReq (pd_slice (texts [msg1]))] ++ repeat OpClose n ++ [OpResp (pd_slice (rtexts [rsp1]))]) in
  (last (match rc with ROk l => l | _ => [] end) None, length (runs_of HTransactionComplete 0 s)).
(** If closing flushes, each close runs TRANSACTION_COMPLETE for the transaction that awaits its response, and the response, which is
    still accepted, runs it once more. With auto-destroy only the first close does, but the response does all the same. *)
Theorem C94_flushed_early_refuted :
  map (early_close ok_env) [0; 1; 3]%nat = [(Some SsData, 1); (Some SsData, 1); (Some SsData, 1)]%nat /\
  map (early_close flushing) [0; 1; 3]%nat = [(Some SsData, 1); (Some SsData, 2); (Some SsData, 4)]%nat /\
  map (early_close flushing_destroying) [0; 1; 3]%nat = [(Some SsData, 1); (Some SsData, 2); (Some SsData, 2)]%nat.
Proof. split; [|split]; vm_compute; reflexivity. Qed.
Print Assumptions C94_flushed_early_refuted.
