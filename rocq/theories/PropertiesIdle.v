(** Property C92 of properties.jsonl: calls that bring nothing. Which calls these are: SpecIdle.v. *)
From Coq Require Import List Lia Bool.
From Verif Require Import Base Spec SpecTx SpecMsg SpecResp SpecIdle ModelUtil ModelState ModelTx ModelConn SpecConn ProofsBase ProofsMsg ProofsRMsg ProofsTalk ProofsIdle PropertiesConn PropertiesMsg PropertiesResp PropertiesEnd.

(** * C92 *)
(** A conversation in which, between the requests of a round and their responses, any number of calls are made that bring nothing. The
    calls that bring something return what they return, the callbacks run and the transactions are as they are without the others. *)
Theorem C92_idle_calls : forall e rounds, Forall (fun x => Forall idle (snd x)) rounds -> accepting e -> Forall good_round (map fst rounds) -> talk_fits e (map fst rounds) ->
  exists s, history e (idle_conversation rounds) = (ROk (map idle_result (idle_conversation rounds)), s) /\
    conversation_events (e_cfg e) 0 (map fst rounds) (events s) /\
    (forall k m r, nth_error (exchanges (map fst rounds)) k = Some (m, r) ->
      if c_auto_destroy (e_cfg e) then tx_get (N.of_nat k) (s_txs s) = None
      else exists t, tx_get (N.of_nat k) (s_txs s) = Some t /\ asked m t /\ answered r t).
Proof. exact idle_parsed. Qed.
Print Assumptions C92_idle_calls.

(** The rounds of C56 with all of these calls between them. *)
Definition idle_list : list op := [OpReq (pd_slice []); OpResp (gap_of 0); OpReqClose; OpOpen; OpResp (pd_slice []); OpReq (gap_of 0); OpReqClose].
Definition idle_rounds : list (round * list op) := combine ex_rounds [idle_list; []; rev idle_list].
Example C92_ex : map fst idle_rounds = ex_rounds /\ (1 < length ex_rounds)%nat /\ Forall (fun x => Forall idle (snd x)) idle_rounds /\ Forall good_round (map fst idle_rounds) /\
  (forall e, In e [ok_env; destroying; flushing] -> accepting e /\ talk_fits e (map fst idle_rounds)) /\
  map idle_result idle_list = [Some SsClosed; Some SsClosed; None; None; Some SsClosed; Some SsClosed; None].
Proof.
  assert (E : map fst idle_rounds = ex_rounds) by (vm_compute; reflexivity). rewrite E. split; [reflexivity|]. split; [vm_compute; lia|]. split.
  { assert (I : Forall idle idle_list) by (unfold idle_list; repeat constructor).
    assert (X : map snd idle_rounds = [idle_list; []; rev idle_list]) by (vm_compute; reflexivity). apply Forall_forall. intros x Hx. apply (in_map snd) in Hx. rewrite X in Hx. destruct Hx as [<- | [<- | [<- | []]]]; [exact I|constructor|now apply Forall_rev]. }
  split; [exact ex_rounds_good|]. split; [|vm_compute; reflexivity].
  intros e [<- | [<- | [<- | []]]]; (split; [|apply fitsb_sound; vm_compute; reflexivity]); [exact ex_accepting|exact destroying_accepts|exact flushing_accepts].
Qed.
