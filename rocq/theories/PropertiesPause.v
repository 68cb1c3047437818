(** Property C93 of properties.jsonl: closing between rounds. The calls: SpecPause.v. *)
From Coq Require Import List Lia Bool.
From Verif Require Import Base Spec SpecTx SpecMsg SpecResp SpecIdle SpecPause ModelUtil ModelState ModelTx ModelConn SpecConn ProofsBase ProofsMsg ProofsRMsg ProofsTalk ProofsIdle ProofsPause PropertiesConn PropertiesMsg PropertiesResp PropertiesEnd PropertiesIdle.

(** * C93 *)
(** A conversation in which the connection is closed after any of its rounds, any number of times, mixed with calls that bring nothing.
    Every call returns, the callbacks run and the transactions are as they are if it is never closed. *)
Theorem C93_closing_between_rounds : forall e rounds, Forall (fun x => Forall pausing_op (snd x)) rounds -> accepting e -> Forall good_round (map fst rounds) -> talk_fits e (map fst rounds) ->
  exists s, history e (pause_conversation rounds) = (ROk (map idle_result (pause_conversation rounds)), s) /\
    conversation_events (e_cfg e) 0 (map fst rounds) (events s) /\
    (forall k m r, nth_error (exchanges (map fst rounds)) k = Some (m, r) ->
      if c_auto_destroy (e_cfg e) then tx_get (N.of_nat k) (s_txs s) = None
      else exists t, tx_get (N.of_nat k) (s_txs s) = Some t /\ asked m t /\ answered r t).
Proof. exact pause_parsed. Qed.
Print Assumptions C93_closing_between_rounds.

(** The rounds of C56, closed after each of them, with and without flushing. *)
Definition pause_list : list op := [OpClose; OpReq (pd_slice []); OpClose; OpOpen; OpResp (gap_of 0); OpReqClose; OpClose].
Definition pause_rounds : list (round * list op) := combine ex_rounds [pause_list; [OpClose]; rev pause_list].
Example C93_ex : map fst pause_rounds = ex_rounds /\ (1 < length ex_rounds)%nat /\ Forall (fun x => Forall pausing_op (snd x)) pause_rounds /\ Forall good_round (map fst pause_rounds) /\
  (forall e, In e [ok_env; destroying; flushing] -> accepting e /\ talk_fits e (map fst pause_rounds)) /\ c_flush (e_cfg ok_env) = false /\ c_flush (e_cfg flushing) = true.
Proof.
  assert (E : map fst pause_rounds = ex_rounds) by (vm_compute; reflexivity). rewrite E. split; [reflexivity|]. split; [vm_compute; lia|]. split.
  { assert (I : Forall pausing_op pause_list) by (unfold pause_list; repeat (apply Forall_cons; [first [apply pausing_close | apply pausing_idle; constructor; reflexivity]|]); constructor).
    assert (X : map snd pause_rounds = [pause_list; [OpClose]; rev pause_list]) by (vm_compute; reflexivity). apply Forall_forall. intros x Hx. apply (in_map snd) in Hx. rewrite X in Hx. destruct Hx as [<- | [<- | [<- | []]]]; [exact I|apply Forall_cons; [apply pausing_close|constructor]|now apply Forall_rev]. }
  split; [exact ex_rounds_good|]. split; [|split; vm_compute; reflexivity].
  intros e [<- | [<- | [<- | []]]]; (split; [|apply fitsb_sound; vm_compute; reflexivity]); [exact ex_accepting|exact destroying_accepts|exact flushing_accepts].
Qed.
