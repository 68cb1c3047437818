(** The completion callbacks of a request or response run at most once. *)
From Coq Require FinFun.
From Verif Require Import Base ModelUtil ModelState ModelTx ModelConn SpecConn.
From Verif Require Import ProofsBase ProofsConn ProofsCore ProofsHonest ProofsQuiet ProofsRel.

Definition comp_hook (sd : side) (h : hook) : bool :=
  match sd, h with SReq, HRequestComplete | SResp, HResponseComplete => true | _, _ => false end.
Definition comps (sd : side) (s : st) : list N := map (fun x => ev_tx (fst x)) (filter (fun x => comp_hook sd (ev_hook (fst x))) (s_trace s)).

(** The transactions a side has passed are all there. *)
Record passed (e : env) (s : st) : Prop := {
  pa_live : forall j, j < s_ridx s \/ j < s_pidx s -> live j s;
  pa_begun : forall j t, s_pidx s <= j < s_ridx s -> tx_get j (s_txs s) = Some t -> t_prog (x_req t) <> PNotStarted;
  pa_cap : N.of_nat (length (s_txs s)) <= c_max_tx (e_cfg e);
  pa_keys : forall j, live j s -> j <= N.max (s_ridx s) (s_pidx s);
  pa_ended : forall j t, j < s_pidx s -> tx_get j (s_txs s) = Some t -> t_prog (x_resp t) <> PNotStarted }.
(** The response the parser is at has begun. *)
Definition answering (s : st) : Prop := exists t, tx_get (s_pidx s) (s_txs s) = Some t /\ t_prog (x_resp t) <> PNotStarted.
Lemma live_in i l : tx_get i l <> None -> In i (map fst l).
Proof. induction l as [|[j t] l IH]; cbn [tx_get map fst]; [congruence|]. destruct (i =? j) eqn:E; [left; apply N.eqb_eq in E; now subst|right; auto]. Qed.
Lemma pigeon n s : (forall j, j < n -> live j s) -> n <= N.of_nat (length (s_txs s)).
Proof.
  intro H. assert (L : (length (map N.of_nat (seq 0 (N.to_nat n))) <= length (map fst (s_txs s)))%nat).
  { apply NoDup_incl_length.
    - apply (FinFun.Injective_map_NoDup); [intros a b; lia|apply seq_NoDup].
    - intros j Hj. apply in_map_iff in Hj. destruct Hj as (k & <- & Hk). apply in_seq in Hk. apply live_in, H. lia. }
  rewrite !map_length, seq_length in L. lia.
Qed.
Definition held (sd : side) (s : st) : Prop := exists t, tx_get (s_idx sd s) (s_txs s) = Some t /\ t_prog (x_dir sd t) = PComplete /\ ending sd (d_state (s_dir sd s)) = true.
Definition once (sd : side) (s : st) : Prop := NoDup (comps sd s) /\ forall i, In i (comps sd s) -> i < s_idx sd s \/ (i = s_idx sd s /\ held sd s).
(** The same but for what the current transaction looks like. *)
Definition once' (sd : side) (s : st) : Prop := NoDup (comps sd s) /\ forall i, In i (comps sd s) -> i <= s_idx sd s.
Definition strict (sd : side) (s : st) : Prop := NoDup (comps sd s) /\ forall i, In i (comps sd s) -> i < s_idx sd s.
Lemma once_weak sd s : once sd s -> once' sd s.
Proof. intros [A B]. split; [exact A|]. intros i H. destruct (B i H) as [?|[-> _]]; lia. Qed.
Lemma strict_once sd s : strict sd s -> once sd s.
Proof. intros [A B]. split; [exact A|]. intros i H. left. auto. Qed.
(** TRANSACTION_COMPLETE runs at most once for each side that passed the transaction. *)
Definition tcs (i : N) (s : st) : nat := length (filter (fun x => match ev_hook (fst x) with HTransactionComplete => ev_tx (fst x) =? i | _ => false end) (s_trace s)).
Definition below (i n : N) : nat := if i <? n then 1 else 0.
Definition twice (s : st) : Prop := forall i, (tcs i s <= below i (s_ridx s) + below i (s_pidx s))%nat.
Record good (e : env) (s : st) : Prop := { go_passed : passed e s; go_req : once SReq s; go_resp : once SResp s; go_recv : recv_ok s; go_twice : c_flush (e_cfg e) = false -> twice s }.

Lemma comps_app sd l s s' : s_trace s' = l ++ s_trace s -> Forall (fun x => special (ev_hook (fst x)) = false) l -> comps sd s' = comps sd s.
Proof.
  intros E F. unfold comps. rewrite E. clear E. induction F as [|x l H F IH]; [reflexivity|]. cbn [app filter].
  replace (comp_hook sd (ev_hook (fst x))) with false; [exact IH|]. destruct sd; destruct (ev_hook (fst x)); (reflexivity || discriminate).
Qed.
Lemma rel_comps lv sd e s s' x : rel lv sd e s s' -> recv_ok s -> comps x s' = comps x s.
Proof.
  intros R H. destruct (rl_trace _ _ _ _ _ R H) as (_ & l & E & F). eapply comps_app; [exact E|]. eapply Forall_impl; [|exact F]. intros a [S _]. exact S.
Qed.
Lemma tcs_app i l s s' : s_trace s' = l ++ s_trace s -> Forall (fun x => special (ev_hook (fst x)) = false) l -> tcs i s' = tcs i s.
Proof.
  intros E F. unfold tcs. rewrite E. clear E. induction F as [|x l H F IH]; [reflexivity|]. cbn [app filter]. destruct (ev_hook (fst x)); (exact IH || discriminate).
Qed.
Lemma rel_twice lv sd e s s' : rel lv sd e s s' -> recv_ok s -> twice s -> twice s'.
Proof.
  intros R V T i. destruct (rl_trace _ _ _ _ _ R V) as (_ & l & E & F). rewrite (tcs_app i l s s' E), (rl_ridx _ _ _ _ _ R), (rl_pidx _ _ _ _ _ R); [apply T|].
  eapply Forall_impl; [|exact F]. intros a [S _]. exact S.
Qed.
Lemma rel_recv lv sd e s s' : rel lv sd e s s' -> recv_ok s -> recv_ok s'.
Proof. intros R H. apply (rl_trace _ _ _ _ _ R H). Qed.
Lemma rel_passed lv sd e s s' : rel lv sd e s s' -> passed e s -> passed e s'.
Proof.
  intros R [A B C D F]. constructor.
  - intros j. rewrite (rl_ridx _ _ _ _ _ R), (rl_pidx _ _ _ _ _ R). intro H. eapply rel_live; eauto.
  - intros j t'. rewrite (rl_ridx _ _ _ _ _ R), (rl_pidx _ _ _ _ _ R). intros H E'.
    assert (L : live j s) by (apply A; lia). unfold live in L. destruct (tx_get j (s_txs s)) as [t|] eqn:E; [|congruence].
    destruct (rl_txs _ _ _ _ _ R j t E) as (t2 & E2 & K & O). rewrite E' in E2. injection E2 as <-. specialize (B j t H E).
    destruct (N.eq_dec j (s_idx sd s)) as [Q|Q]; [|now rewrite (O Q)]. specialize (K Q). destruct sd; [now apply (kp_begun _ _ _ _ K)|].
    pose proof (kp_other _ _ _ _ K) as P. cbn in P. congruence.
  - now apply (rl_cap _ _ _ _ _ R).
  - intros j L. rewrite (rl_ridx _ _ _ _ _ R), (rl_pidx _ _ _ _ _ R). unfold live in *. destruct (tx_get j (s_txs s)) as [t|] eqn:E; [apply D; congruence|].
    destruct (tx_get j (s_txs s')) as [t'|] eqn:E'; [|congruence]. destruct (rl_new _ _ _ _ _ R j t' E E') as [-> _]. destruct sd; cbn; lia.
  - intros j t'. rewrite (rl_pidx _ _ _ _ _ R). intros H E'. assert (L : live j s) by (apply A; lia). unfold live in L. destruct (tx_get j (s_txs s)) as [t|] eqn:E; [|congruence].
    destruct (rl_txs _ _ _ _ _ R j t E) as (t2 & E2 & K & O). rewrite E' in E2. injection E2 as <-. specialize (F j t H E).
    destruct (N.eq_dec j (s_idx sd s)) as [Q|Q]; [|now rewrite (O Q)]. specialize (K Q). destruct sd; [|now apply (kp_begun _ _ _ _ K)].
    pose proof (kp_other _ _ _ _ K) as P. cbn in P. congruence.
Qed.
Lemma rel_once lv sd e s s' : rel lv sd e s s' -> recv_ok s -> (lv = 0 \/ ending sd (d_state (s_dir sd s)) = false) -> once sd s -> once sd s'.
Proof.
  intros R H L [A B]. unfold once. rewrite (rel_comps _ _ _ _ _ sd R H), (rel_idx _ _ sd _ _ _ R). split; [exact A|]. intros i Hi.
  destruct (B i Hi) as [?|[-> (t & E & P & S)]]; [now left|right]. split; [reflexivity|]. destruct L as [->|L]; [|congruence].
  destruct (rl_txs _ _ _ _ _ R _ t E) as (t' & E' & K & _). exists t'. rewrite (rel_idx _ _ sd _ _ _ R). split; [exact E'|].
  rewrite (kp_own _ _ _ _ (K eq_refl) eq_refl), (rl_state _ _ _ _ _ R eq_refl). split; assumption.
Qed.
Lemma rel_once_other lv sd e s s' : rel lv sd e s s' -> recv_ok s -> once (other sd) s -> once (other sd) s'.
Proof.
  intros R H [A B]. unfold once. rewrite (rel_comps _ _ _ _ _ (other sd) R H), (rel_idx _ _ (other sd) _ _ _ R). split; [exact A|]. intros i Hi.
  destruct (B i Hi) as [?|[-> (t & E & P & S)]]; [now left|right]. split; [reflexivity|].
  destruct (rl_txs _ _ _ _ _ R _ t E) as (t' & E' & K & O). exists t'. rewrite (rel_idx _ _ (other sd) _ _ _ R). split; [exact E'|]. split.
  - destruct (N.eq_dec (s_idx (other sd) s) (s_idx sd s)) as [Q|Q]; [rewrite (kp_other _ _ _ _ (K Q)); exact P|rewrite (O Q); exact P].
  - destruct (rl_ostate _ _ _ _ _ R) as [->|(-> & F & _)]; [exact S|]. cbn [other s_dir]. now rewrite F.
Qed.
Lemma rel_good lv sd e s s' : rel lv sd e s s' -> (lv = 0 \/ ending sd (d_state (s_dir sd s)) = false) -> good e s -> good e s'.
Proof.
  intros R L [A B C D T]. constructor; [eapply rel_passed; eauto| | |eapply rel_recv; eauto|intro; eapply rel_twice; eauto].
  - destruct sd; [eapply rel_once; eauto|]. change SReq with (other SResp). eapply rel_once_other; eauto.
  - destruct sd; [|eapply rel_once; eauto]. change SResp with (other SReq). eapply rel_once_other; eauto.
Qed.

Section Once.
Variable e : env.
Hypothesis Acc : accepting e.
Hypothesis Keep : c_auto_destroy (e_cfg e) = false.
Hypothesis Cap : c_max_tx (e_cfg e) < 2 ^ 64.

Lemma tx_hook_ok h i s : exists l, tx_hook h i e s = (ROk tt, set_s_trace (l ++ s_trace s) s) /\
  ((l = [] /\ ~ live i s) \/ (exists r, l = [(mk_ev h i PlNone, r)] /\ live i s)).
Proof using Acc.
  unfold tx_hook. unfold bind at 1, get. destruct (tx_get i (s_txs s)) eqn:E.
  - unfold call, bind. rewrite (accepting_check _ _ _ Acc). eexists [_]. split; [reflexivity|]. right. eexists. split; [reflexivity|]. unfold live. congruence.
  - exists []. split; [destruct s; reflexivity|]. left. split; [reflexivity|]. unfold live. congruence.
Qed.
Lemma data_hook_ok h i d s : fst (data_hook h i d e s) = ROk tt.
Proof using Acc. unfold data_hook, call, bind. now rewrite (accepting_check _ _ _ Acc). Qed.
Lemma need_live sd s : live (s_idx sd s) s -> exists t, tx_get (s_idx sd s) (s_txs s) = Some t /\ need_tx sd e s = (ROk t, s) /\ the_tx sd e s = (ROk t, s).
Proof using.
  unfold live. destruct (tx_get _ _) as [t|] eqn:E; [|congruence]. intros _. exists t. split; [reflexivity|].
  unfold need_tx, the_tx, bind, cur_tx. rewrite E. split; reflexivity.
Qed.
Lemma receiver_ok sd s : live (s_idx sd s) s -> fst (receiver_finalize_clear sd e s) = ROk tt.
Proof using Acc.
  intro L. unfold receiver_finalize_clear. unfold bind at 1, get_d. destruct (d_recv (s_dir sd s)); [|reflexivity].
  assert (S : fst (receiver_send_data sd e s) = ROk tt).
  { unfold receiver_send_data, input. unfold bind at 1. destruct (pd_callback_data (s_input s)) as [d p']. unfold modify. unfold bind at 1.
    cbv beta iota. set (s1 := set_s_input p' s). assert (L1 : live (s_idx sd s1) s1) by (destruct sd; exact L).
    destruct (need_live sd s1 L1) as (t & _ & E & _). unfold bind at 1. rewrite E. unfold bind at 1, get. destruct (d_recv _); [apply data_hook_ok|reflexivity]. }
  unfold bind at 1. unfold try. destruct (receiver_send_data sd e s) as [[u|x| |] s1]; cbn [fst] in S; try discriminate. reflexivity.
Qed.
(** Raising an index does not wrap. *)
Lemma next_req s : passed e s -> live (s_ridx s) s -> wadd (s_ridx s) 1 = s_ridx s + 1.
Proof using Cap Keep.
  intros [A B C D F] L. assert (P : s_ridx s + 1 <= N.of_nat (length (s_txs s))).
  { apply pigeon. intros j Hj. destruct (N.eq_dec j (s_ridx s)) as [->|Q]; [exact L|apply A; lia]. }
  unfold wadd. apply N.mod_small. unfold u64_mod. lia.
Qed.
Lemma next_resp s : passed e s -> live (s_pidx s) s -> wadd (s_pidx s) 1 = s_pidx s + 1.
Proof using Cap Keep.
  intros [A B C D F] L. assert (P : s_pidx s + 1 <= N.of_nat (length (s_txs s))).
  { apply pigeon. intros j Hj. destruct (N.eq_dec j (s_pidx s)) as [->|Q]; [exact L|apply A; lia]. }
  unfold wadd. apply N.mod_small. unfold u64_mod. lia.
Qed.
Lemma request_next_eval s : request_next e s = (ROk tt, set_s_ridx (wadd (s_ridx s) 1) (if s_pidx s <? s_ridx s then set_s_cflags (N.lor (s_cflags s) 1) s else s)).
Proof using Keep.
  unfold request_next. unfold bind at 1, get, when, modify. unfold bind, check_free. destruct (_ <? _); cbn [fst]; rewrite Keep; reflexivity.
Qed.
Lemma response_next_eval s : response_next e s = (ROk tt, set_s_pidx (wadd (s_pidx s) 1) s).
Proof using Keep. unfold response_next. unfold bind, get, check_free, modify. rewrite Keep. reflexivity. Qed.
Lemma finalize_eval i s : exists l, finalize i e s = (ROk tt, set_s_trace (l ++ s_trace s) s) /\ (l = [] \/ exists r, l = [(mk_ev HTransactionComplete i PlNone, r)]).
Proof using Acc.
  unfold finalize. unfold bind at 1, get. destruct (tx_get i (s_txs s)) as [t|]; [|exists []; split; [destruct s; reflexivity|now left]].
  destruct (is_complete t); [|exists []; split; [destruct s; reflexivity|now left]].
  destruct (tx_hook_ok HTransactionComplete i s) as (l & -> & H). exists l. split; [reflexivity|]. destruct H as [[-> _]|(r & -> & _)]; [now left|right; now exists r].
Qed.

(** ** The end of a request *)
Definition request_tail : M unit :=
  let* t := the_tx SReq in
  set_state SReq (if x_is09 t then StIgnore09 else StIdle) ;;
  let* s := get in
  finalize (s_ridx s) ;;
  request_next.
Lemma request_tail_eval s t : tx_get (s_ridx s) (s_txs s) = Some t ->
  exists s', request_tail e s = (ROk tt, s') /\ s_txs s' = s_txs s /\ s_ridx s' = wadd (s_ridx s) 1 /\ s_pidx s' = s_pidx s /\ s_resp s' = s_resp s /\
    d_recv (s_req s') = d_recv (s_req s) /\ s_logs s' = s_logs s /\ d_state (s_req s') = (if x_is09 t then StIgnore09 else StIdle) /\
    (s_trace s' = s_trace s \/ exists r, s_trace s' = (mk_ev HTransactionComplete (s_ridx s) PlNone, r) :: s_trace s).
Proof using Acc Keep.
  intro E. unfold request_tail. unfold bind at 1. destruct (need_live SReq s) as (t' & E' & _ & ->); [unfold live; cbn; congruence|].
  cbn [s_idx] in E'. rewrite E in E'. injection E' as <-.
  unfold bind at 1, set_state, upd_d, modify. unfold bind at 1, get. cbn [s_dir set_s_dir].
  set (s1 := set_s_req _ s). unfold bind. change (s_ridx s1) with (s_ridx s).
  destruct (finalize_eval (s_ridx s) s1) as (l & -> & Hl). rewrite request_next_eval.
  eexists. split; [reflexivity|]. cbn [s_pidx s_ridx set_s_trace].
  destruct (_ <? _); (do 7 (split; [reflexivity|])); cbn; (destruct Hl as [->|(r & ->)]; [left; reflexivity|right; exists r; reflexivity]).
Qed.
Lemma comps_same sd s s' : s_trace s' = s_trace s \/ (exists ev r, s_trace s' = (ev, r) :: s_trace s /\ comp_hook sd (ev_hook ev) = false) -> comps sd s' = comps sd s.
Proof using. intros [E|(ev & r & E & F)]; unfold comps; rewrite E; [reflexivity|]. cbn [filter fst]. now rewrite F. Qed.
Lemma tcs_same i s s' : s_trace s' = s_trace s -> tcs i s' = tcs i s.
Proof using. intro E. unfold tcs. now rewrite E. Qed.
Lemma tcs_one i j s s' r : s_trace s' = (mk_ev HTransactionComplete j PlNone, r) :: s_trace s -> tcs i s' = ((if (j =? i)%N then 1 else 0) + tcs i s)%nat.
Proof using. intro E. unfold tcs. rewrite E. cbn [filter fst ev_hook ev_tx]. destruct (j =? i)%N; reflexivity. Qed.
Lemma request_tail_good s t : passed e s -> once' SReq s -> once SResp s -> recv_ok s -> (c_flush (e_cfg e) = false -> twice s) -> tx_get (s_ridx s) (s_txs s) = Some t -> t_prog (x_req t) <> PNotStarted ->
  good e (snd (request_tail e s)).
Proof using Acc Keep Cap.
  intros P [O1 O2] R V Tw E Nt. assert (L : live (s_ridx s) s) by (unfold live; congruence).
  destruct (request_tail_eval s t E) as (s' & -> & X1 & X2 & X3 & X4 & X5 & X6 & X7 & X8). cbn [snd].
  rewrite (next_req s P L) in X2. constructor.
  - destruct P as [A B C D F]. constructor.
    + intros j Hj. unfold live. rewrite X1. rewrite X2, X3 in Hj. destruct (N.eq_dec j (s_ridx s)) as [->|Q]; [exact L|]. apply A. lia.
    + intros j u Hj. rewrite X1. rewrite X2, X3 in Hj. destruct (N.eq_dec j (s_ridx s)) as [->|Q]; [congruence|]. apply B. lia.
    + now rewrite X1.
    + intros j Hj. unfold live in Hj. rewrite X1 in Hj. specialize (D j Hj). lia.
    + intros j u. rewrite X1, X3. apply F.
  - apply strict_once. assert (Q : comps SReq s' = comps SReq s).
    { apply comps_same. destruct X8 as [->|(r & ->)]; [now left|right; eexists _, r; split; reflexivity]. }
    unfold strict. rewrite Q. split; [exact O1|]. intros i Hi. cbn [s_idx]. rewrite X2. specialize (O2 i Hi). cbn [s_idx] in O2. lia.
  - assert (Q : comps SResp s' = comps SResp s).
    { apply comps_same. destruct X8 as [->|(r & ->)]; [now left|right; eexists _, r; split; reflexivity]. }
    destruct R as [R1 R2]. unfold once, held. rewrite Q. cbn [s_idx s_dir]. rewrite X1, X3, X4. split; [exact R1|exact R2].
  - destruct V as [V1 V2]. split; [now rewrite X5|now rewrite X4].
  - intros Fl i. specialize (Tw Fl i). rewrite X2, X3. unfold below in *. destruct X8 as [X8|(r & X8)]; [rewrite (tcs_same i s s' X8)|rewrite (tcs_one i _ s s' r X8)];
      destruct (N.ltb_spec i (s_ridx s)), (N.ltb_spec i (s_ridx s + 1)), (N.eqb_spec (s_ridx s) i); lia.
Qed.
Lemma good_need sd s : good e s -> (exists t s1, need_tx sd e s = (ROk t, s1) /\ rel 0 sd e s s1 /\ tx_get (s_idx sd s1) (s_txs s1) = Some t) \/ need_tx sd e s = (RErr SError, s).
Proof using.
  intro G. pose proof (ok_need0 0 sd false (s_idx sd s) e s eq_refl ltac:(discriminate)) as R.
  destruct (need_tx_eval sd e s) as [(t & s1 & E & _ & _ & T)|E]; [left|right; exact E]. exists t, s1. rewrite E in R. auto.
Qed.
Lemma once_strict sd s t : once sd s -> tx_get (s_idx sd s) (s_txs s) = Some t -> t_prog (x_dir sd t) <> PComplete -> strict sd s.
Proof using. intros [A B] E P. split; [exact A|]. intros i Hi. destruct (B i Hi) as [?|[_ (u & E' & P' & _)]]; [assumption|]. congruence. Qed.
Lemma prog_eqb_iff a b : prog_eqb a b = true <-> a = b.
Proof using. unfold prog_eqb. destruct a, b; cbn; split; intro; (reflexivity || discriminate). Qed.
Lemma state_request_complete_good s : good e s -> ending SReq (d_state (s_req s)) = true -> good e (snd (state_request_complete e s)).
Proof using Acc Keep Cap.
  intros G En. unfold state_request_complete. unfold bind at 1. destruct (good_need SReq s G) as [(t & s1 & -> & R & T)| ->]; [|exact G].
  assert (G1 : good e s1) by (eapply rel_good; eauto). assert (En1 : ending SReq (d_state (s_req s1)) = true) by (pose proof (rl_state _ _ _ _ _ R eq_refl) as Q; cbn [s_dir] in Q; congruence).
  clear s G En R. cbn [s_idx] in T. change (good e (snd ((when (negb (prog_eqb (t_prog (x_req t)) PComplete))
     (when (request_has_body t) (body_data SReq None);;
      set_progress SReq PComplete;;
      (let* s := get in tx_hook HRequestComplete (s_ridx s));; receiver_finalize_clear SReq);; request_tail) e s1))).
  destruct (prog_eqb (t_prog (x_req t)) PComplete) eqn:Pc; cbn [negb when].
  { apply prog_eqb_iff in Pc. unfold bind at 1, ret. eapply request_tail_good; try apply G1; [apply once_weak, G1|exact T|congruence]. }
  assert (Np : t_prog (x_req t) <> PComplete) by (intro Q; apply prog_eqb_iff in Q; congruence).
  unfold bind at 1. unfold bind at 1.
  assert (R2 : rel 0 SReq e s1 (snd (when (request_has_body t) (body_data SReq None) e s1))).
  { refine ((_ : ok 0 SReq false (s_ridx s1) (when (request_has_body t) (body_data SReq None))) e s1 eq_refl ltac:(discriminate)). ok_go. }
  destruct (when (request_has_body t) (body_data SReq None) e s1) as [[u|x| |] s2] eqn:Ew; cbn [snd] in R2; [|exact (rel_good _ _ _ _ _ R2 (or_introl eq_refl) G1)..].
  assert (G2 : good e s2) by (eapply rel_good; eauto).
  destruct (rl_txs _ _ _ _ _ R2 _ t T) as (t2 & T2 & K2 & _). cbn [s_idx] in K2. specialize (K2 eq_refl).
  rewrite <- (rl_ridx _ _ _ _ _ R2) in T2. pose proof (kp_own _ _ _ _ K2 eq_refl) as P2. cbn [x_dir] in P2.
  assert (St : strict SReq s2) by (eapply once_strict; [apply G2|exact T2|cbn; congruence]).
  unfold bind at 1. unfold set_progress, mod_txd, mod_tx. unfold bind at 1.
  assert (L2 : live (s_ridx s2) s2) by (unfold live; congruence).
  destruct (need_live SReq s2 L2) as (t2' & E' & _ & ->). cbn [s_idx] in E'. rewrite T2 in E'. injection E' as <-.
  unfold bind at 1, get, put_tx, modify. cbn beta iota. cbn [s_idx].
  set (t3 := upd_dir SReq (set_t_prog PComplete) t2). set (s3 := set_s_txs (tx_set (s_ridx s2) t3 (s_txs s2)) s2).
  assert (R3 : rel 1 SReq e s2 s3).
  { apply (rel_put 1 SReq e s2 t2 t3 T2). constructor; cbn; auto; try (intro; lia). discriminate. }
  unfold bind at 1. unfold bind at 1. cbv beta iota. change (s_ridx s3) with (s_ridx s2).
  assert (T3 : tx_get (s_ridx s2) (s_txs s3) = Some t3).
  { cbn [s_txs s3 set_s_txs]. unfold s3. cbn [s_txs set_s_txs]. rewrite tx_get_set, N.eqb_refl, T2. reflexivity. }
  destruct (tx_hook_ok HRequestComplete (s_ridx s2) s3) as (l & -> & Hl). destruct Hl as [[_ H]|(r & -> & _)]; [elim H; unfold live; congruence|].
  set (s4 := set_s_trace _ s3).
  assert (L4 : live (s_idx SReq s4) s4) by (red; cbn [s_idx]; change (tx_get (s_ridx s2) (s_txs s3) <> None); congruence).
  pose proof (receiver_ok SReq s4 L4) as Rok.
  assert (R5 : rel 0 SReq e s4 (snd (receiver_finalize_clear SReq e s4))).
  { apply (ok_receiver_finalize_clear 0 SReq false (s_ridx s4)); [reflexivity|discriminate]. }
  destruct (receiver_finalize_clear SReq e s4) as [[u5|x| |] s5]; cbn [fst snd] in *; try discriminate.
  assert (V3 : recv_ok s3) by (exact (go_recv _ _ G2)). assert (V4 : recv_ok s4) by exact V3.
  assert (C4 : comps SReq s4 = s_ridx s2 :: comps SReq s2) by reflexivity.
  assert (C5 : comps SReq s5 = s_ridx s2 :: comps SReq s2) by (rewrite (rel_comps _ _ _ _ _ SReq R5 V4); exact C4).
  assert (I5 : s_ridx s5 = s_ridx s2) by (rewrite (rl_ridx _ _ _ _ _ R5); reflexivity).
  destruct (rl_txs _ _ _ _ _ R5 (s_ridx s2) t3 T3) as (t5 & T5 & K5 & _). cbn [s_idx] in K5. specialize (K5 eq_refl).
  change (good e (snd (request_tail e s5))). apply (request_tail_good s5 t5).
  - eapply rel_passed; [exact R5|]. assert (P3 : passed e s3) by (eapply rel_passed; [exact R3|apply G2]). destruct P3 as [A B C D F]. constructor; assumption.
  - destruct St as [St1 St2]. unfold once'. rewrite C5. cbn [s_idx] in *. rewrite I5. split.
    + constructor; [intro H; specialize (St2 _ H); lia|exact St1].
    + intros i [<-|Hi]; [lia|]. specialize (St2 i Hi). lia.
  - change SResp with (other SReq). eapply rel_once_other; [exact R5|exact V4|]. assert (O3 : once SResp s3) by (change SResp with (other SReq); eapply rel_once_other; [exact R3|apply G2|apply G2]).
    exact O3.
  - eapply rel_recv; [exact R5|exact V4].
  - intro Fl. eapply rel_twice; [exact R5|exact V4|]. assert (T3' : twice s3) by (eapply rel_twice; [exact R3|apply G2|now apply G2]). exact T3'.
  - rewrite I5. exact T5.
  - pose proof (kp_own _ _ _ _ K5 eq_refl) as Q. cbn [x_dir] in Q. rewrite Q. discriminate.
Qed.

(** ** Bookkeeping *)
Definition pres {A} (m : M A) : Prop := forall s, good e s -> good e (snd (m e s)).
Lemma pres_bind A B (m : M A) (k : A -> M B) : pres m -> (forall a, pres (k a)) -> pres (bind m k).
Proof using. intros H K s G. unfold bind. specialize (H s G). destruct (m e s) as [[a|x| |] s']; cbn [snd] in *; try exact H. now apply K. Qed.
Lemma pres_try A (m : M A) : pres m -> pres (try m).
Proof using. intros H s G. unfold try. specialize (H s G). destruct (m e s) as [[a|x| |] s']; exact H. Qed.
Lemma pres_ignore A (m : M A) : pres m -> pres (ignore m).
Proof using. intros H s G. unfold ignore. specialize (H s G). destruct (m e s) as [[a|x| |] s']; exact H. Qed.
Lemma pres_get A (k : st -> M A) : (forall s, pres (k s)) -> pres (bind get k).
Proof using. intros K s G. unfold bind, get. now apply K. Qed.
Lemma pres_ok A sd (m : M A) : (forall i, ok 0 sd false i m) -> pres m.
Proof using. intros H s G. exact (rel_good _ _ _ _ _ (H (s_idx sd s) e s eq_refl ltac:(discriminate)) (or_introl eq_refl) G). Qed.
Lemma pres_ret A (a : A) : pres (ret a). Proof using. intros s G. exact G. Qed.
Lemma pres_fail A x : pres (@fail A x). Proof using. intros s G. exact G. Qed.
Lemma pres_fuel A : pres (@out_of_fuel A). Proof using. intros s G. exact G. Qed.
Lemma good_ext s s' : s_ridx s' = s_ridx s -> s_pidx s' = s_pidx s -> s_txs s' = s_txs s -> d_state (s_req s') = d_state (s_req s) -> d_state (s_resp s') = d_state (s_resp s) ->
  recv_ok s' -> comps SReq s' = comps SReq s -> comps SResp s' = comps SResp s -> (c_flush (e_cfg e) = false -> forall i, tcs i s' = tcs i s) -> good e s -> good e s'.
Proof using.
  intros A B C D E F H I J [[P1 P2 P3 P4 P5] R1 R2 _ T]. constructor; [|red; unfold held; cbn [s_idx s_dir] in *; rewrite ?A, ?B, ?C, ?D, ?E, ?H, ?I; assumption..|exact F|intros Fl i; rewrite A, B, (J Fl); now apply T].
  constructor; [intros j; unfold live|intros j t| |intros j; unfold live|intros j t]; rewrite ?A, ?B, ?C; [apply P1|apply P2|exact P3|apply P4|apply P5].
Qed.
Lemma pres_hook h i : comp_hook SReq h = false -> comp_hook SResp h = false -> h <> HTransactionComplete \/ c_flush (e_cfg e) = true -> pres (tx_hook h i).
Proof using Acc.
  intros A B Nt s G. destruct (tx_hook_ok h i s) as (l & -> & H). cbn [snd].
  assert (Q : forall sd, comp_hook sd h = false -> comps sd (set_s_trace (l ++ s_trace s) s) = comps sd s).
  { intros sd F. apply comps_same. destruct H as [[-> _]|(r & -> & _)]; [now left|right; eexists _, r; split; [reflexivity|exact F]]. }
  eapply good_ext; try exact G; try reflexivity; [exact (go_recv _ _ G)|now apply Q..|].
  intros Fl k. destruct Nt as [Nt|Nt]; [|congruence]. unfold tcs. cbn [s_trace set_s_trace]. destruct H as [[-> _]|(r & -> & _)]; [reflexivity|]. cbn [app filter fst ev_hook]. destruct h; (reflexivity || congruence).
Qed.
Lemma rel_strict lv sd s s' : rel lv sd e s s' -> recv_ok s -> strict sd s -> strict sd s'.
Proof using. intros R V [A B]. unfold strict. rewrite (rel_comps _ _ _ _ _ sd R V), (rel_idx _ _ sd _ _ _ R). now split. Qed.
Lemma rel_good_strict lv sd s s' : rel lv sd e s s' -> good e s -> strict sd s -> good e s'.
Proof using.
  intros R G S. assert (S' : strict sd s') by (eapply rel_strict; eauto; apply G). destruct G as [A B C D T]. constructor; [eapply rel_passed; eauto| | |eapply rel_recv; eauto|intro; eapply rel_twice; eauto].
  - destruct sd; [now apply strict_once|]. change SReq with (other SResp). eapply rel_once_other; eauto.
  - destruct sd; [|now apply strict_once]. change SResp with (other SReq). eapply rel_once_other; eauto.
Qed.

(** ** The end of a response *)
Lemma pres_check_waiting : pres request_parser_check_waiting.
Proof using.
  unfold request_parser_check_waiting. apply pres_get. intro s. destruct (_ && _); [apply pres_fail|]. destruct (s_other_at_end s); [|apply pres_ret].
  apply pres_bind; [|intro; apply pres_fail]. intros s1 G. eapply good_ext; try exact G; try reflexivity. exact (go_recv _ _ G).
Qed.
Lemma check_waiting_idx s : s_pidx (snd (request_parser_check_waiting e s)) = s_pidx s /\ (forall u, fst (request_parser_check_waiting e s) = ROk u -> snd (request_parser_check_waiting e s) = s).
Proof using.
  unfold request_parser_check_waiting, bind, get. destruct (_ && _); [split; [reflexivity|discriminate]|].
  destruct (s_other_at_end s); [|split; reflexivity]. split; [reflexivity|discriminate].
Qed.
Lemma response_next_good s s' : good e s -> answering s -> (s' = s \/ exists r, s' = set_s_trace ((mk_ev HTransactionComplete (s_pidx s) PlNone, r) :: s_trace s) s) ->
  good e (set_s_pidx (wadd (s_pidx s) 1) s').
Proof using Cap Keep.
  intros [[P1 P2 P3 P4 P5] R1 R2 V T] (ta & Ta & Ba) Hs. assert (L : live (s_pidx s) s) by (unfold live; congruence). rewrite (next_resp s ltac:(now constructor) L). constructor.
  - constructor.
    + intros j Hj. assert (Hj' : j < s_ridx s \/ j < s_pidx s + 1) by (destruct Hs as [->|(r & ->)]; exact Hj).
      assert (Lj : live j s) by (destruct (N.eq_dec j (s_pidx s)) as [->|Q]; [exact L|apply P1; lia]). destruct Hs as [->|(r & ->)]; exact Lj.
    + intros j t Hj. assert (Hj' : s_pidx s + 1 <= j < s_ridx s) by (destruct Hs as [->|(r & ->)]; exact Hj).
      assert (Q : tx_get j (s_txs s) = Some t -> t_prog (x_req t) <> PNotStarted) by (apply P2; lia). destruct Hs as [->|(r & ->)]; exact Q.
    + destruct Hs as [->|(r & ->)]; exact P3.
    + intros j Lj. assert (Lj' : live j s) by (destruct Hs as [->|(r & ->)]; exact Lj). specialize (P4 j Lj'). destruct Hs as [->|(r & ->)]; cbn [s_ridx s_pidx set_s_pidx set_s_trace]; lia.
    + intros j t Hj. assert (Hj' : j < s_pidx s + 1) by (destruct Hs as [->|(r & ->)]; exact Hj).
      assert (Q : tx_get j (s_txs s) = Some t -> t_prog (x_resp t) <> PNotStarted) by (destruct (N.eq_dec j (s_pidx s)) as [->|Nj]; [congruence|apply P5; lia]). destruct Hs as [->|(r & ->)]; exact Q.
  - destruct Hs as [->|(r & ->)]; exact R1.
  - apply strict_once. destruct R2 as [A B]. assert (Q : comps SResp (set_s_pidx (s_pidx s + 1) s') = comps SResp s) by (destruct Hs as [->|(r & ->)]; reflexivity).
    unfold strict. rewrite Q. split; [exact A|]. intros i Hi. cbn [s_idx s_pidx set_s_pidx]. destruct (B i Hi) as [?|[-> _]]; cbn [s_idx] in *; lia.
  - destruct Hs as [->|(r & ->)]; exact V.
  - intros Fl i. specialize (T Fl i). unfold below in *. destruct Hs as [->|(r & ->)].
    + change (tcs i (set_s_pidx (s_pidx s + 1) s)) with (tcs i s). cbn [s_ridx s_pidx set_s_pidx]. destruct (N.ltb_spec i (s_pidx s)), (N.ltb_spec i (s_pidx s + 1)); lia.
    + rewrite (tcs_one i (s_pidx s) s (set_s_pidx (s_pidx s + 1) (set_s_trace ((mk_ev HTransactionComplete (s_pidx s) PlNone, r) :: s_trace s) s)) r eq_refl). cbn [s_ridx s_pidx set_s_pidx set_s_trace].
      destruct (N.ltb_spec i (s_pidx s)), (N.ltb_spec i (s_pidx s + 1)), (N.eqb_spec (s_pidx s) i); lia.
Qed.
Lemma response_tail_good i s : good e s -> i = s_pidx s -> answering s -> good e (snd ((request_parser_check_waiting ;; finalize i ;; response_next ;; set_state SResp StIdle) e s)).
Proof using Acc Cap Keep.
  intros G Ei An. assert (L : live (s_pidx s) s) by (destruct An as (ta & Ta & _); unfold live; congruence). unfold bind at 1. pose proof (pres_check_waiting s G) as Gc. destruct (check_waiting_idx s) as [_ Hs].
  destruct (request_parser_check_waiting e s) as [[u|x| |] s1]; cbn [fst snd] in *; try exact Gc.
  specialize (Hs u eq_refl). subst s1 i. unfold bind at 1.
  destruct (finalize_eval (s_pidx s) s) as (l & Ef & Hl). rewrite Ef.
  set (s2 := set_s_trace _ s) in *. assert (H2 : s2 = s \/ exists r, s2 = set_s_trace ((mk_ev HTransactionComplete (s_pidx s) PlNone, r) :: s_trace s) s).
  { destruct Hl as [->|(r & ->)]; [left; unfold s2; destruct s; reflexivity|right; exists r; reflexivity]. }
  assert (I2 : s_pidx s2 = s_pidx s) by reflexivity. clearbody s2. clear Ef.
  unfold bind. rewrite response_next_eval, I2. pose proof (response_next_good s s2 G An H2) as G3. set (s3 := set_s_pidx _ s2) in *.
  assert (S3 : strict SResp s3).
  { destruct G as [P _ [A B] _ _]. assert (Q : comps SResp s3 = comps SResp s) by (unfold s3; destruct H2 as [->|(r & ->)]; reflexivity). unfold strict. rewrite Q.
    split; [exact A|]. intros k Hk. unfold s3. cbn [s_idx s_pidx set_s_pidx]. rewrite (next_resp s P L).
    destruct (B k Hk) as [?|[-> _]]; cbn [s_idx] in *; lia. }
  apply (rel_good_strict 1 SResp s3); [|exact G3|exact S3].
  refine ((_ : ok 1 SResp false (s_pidx s3) (set_state SResp StIdle)) e s3 eq_refl ltac:(discriminate)). ok_go.
Qed.
Lemma state_response_complete_good s : good e s -> ending SResp (d_state (s_resp s)) = true -> good e (snd (state_response_complete e s)).
Proof using Acc Keep Cap.
  intros G En. unfold state_response_complete. unfold bind at 1, get. unfold bind at 1.
  destruct (good_need SResp s G) as [(t & s1 & -> & R & T)| ->]; [|exact G].
  rewrite <- (rl_pidx _ _ _ _ _ R).
  assert (G1 : good e s1) by (eapply rel_good; eauto). assert (En1 : ending SResp (d_state (s_resp s1)) = true) by (pose proof (rl_state _ _ _ _ _ R eq_refl) as Q; cbn [s_dir] in Q; congruence).
  clear s G En R. cbn [s_idx] in T. set (tail := request_parser_check_waiting ;; _).
  assert (Tail : forall s, good e s -> s_pidx s1 = s_pidx s -> answering s -> good e (snd (tail e s))) by (intros; now apply response_tail_good). clearbody tail.
  assert (L1 : live (s_pidx s1) s1) by (unfold live; congruence).
  destruct (prog_eqb (t_prog (x_resp t)) PComplete) eqn:Pc; cbn [negb when].
  { unfold bind, ret. apply Tail; [exact G1|reflexivity|]. exists t. split; [exact T|]. apply prog_eqb_iff in Pc. congruence. }
  assert (Np : t_prog (x_resp t) <> PComplete) by (intro Q; apply prog_eqb_iff in Q; congruence).
  assert (S1 : strict SResp s1) by (eapply once_strict; [apply G1|exact T|exact Np]).
  unfold bind at 1. unfold bind at 1. unfold set_progress, mod_txd, mod_tx. unfold bind at 1.
  destruct (need_live SResp s1 L1) as (t1' & E' & _ & ->). cbn [s_idx] in E'. rewrite T in E'. injection E' as <-.
  unfold bind at 1, get, put_tx, modify. cbn beta iota. cbn [s_idx].
  set (t2 := upd_dir SResp (set_t_prog PComplete) t). set (s2 := set_s_txs (tx_set (s_pidx s1) t2 (s_txs s1)) s1).
  assert (R2 : rel 1 SResp e s1 s2).
  { apply (rel_put 1 SResp e s1 t t2 T). constructor; cbn; auto; try (intro; lia). discriminate. }
  assert (G2 : good e s2) by (eapply rel_good_strict; eauto). assert (S2 : strict SResp s2) by (eapply rel_strict; eauto; apply G1).
  assert (T2 : tx_get (s_pidx s1) (s_txs s2) = Some t2) by (unfold s2; cbn [s_txs set_s_txs]; rewrite tx_get_set, N.eqb_refl, T; reflexivity).
  assert (I2 : s_pidx s2 = s_pidx s1) by reflexivity. assert (En2 : ending SResp (d_state (s_resp s2)) = true) by exact En1.
  assert (P2 : t_prog (x_resp t2) = PComplete) by reflexivity. clearbody t2 s2.
  unfold bind at 1. set (b := when _ _).
  assert (R3 : rel 0 SResp e s2 (snd (b e s2))).
  { refine ((_ : ok 0 SResp false (s_pidx s2) b) e s2 eq_refl ltac:(discriminate)). unfold b. ok_go. }
  destruct (b e s2) as [[u|x| |] s3]; cbn [snd] in R3; [|exact (rel_good _ _ _ _ _ R3 (or_introl eq_refl) G2)..].
  assert (G3 : good e s3) by (exact (rel_good _ _ _ _ _ R3 (or_introl eq_refl) G2)).
  assert (S3 : strict SResp s3) by (eapply rel_strict; eauto; apply G2).
  destruct (rl_txs _ _ _ _ _ R3 _ t2 T2) as (t3 & T3 & K3 & _). cbn [s_idx] in K3. specialize (K3 (eq_sym I2)).
  pose proof (kp_own _ _ _ _ K3 eq_refl) as P3. cbn [x_dir] in P3. pose proof (rl_pidx _ _ _ _ _ R3) as I3. rewrite I2 in I3.
  pose proof (rl_state _ _ _ _ _ R3 eq_refl) as D3. cbn [s_dir] in D3.
  unfold bind at 1. destruct (tx_hook_ok HResponseComplete (s_pidx s1) s3) as (l & -> & Hl). destruct Hl as [[_ H]|(r & -> & _)]; [elim H; unfold live; congruence|].
  set (s4 := set_s_trace _ s3).
  assert (C4 : comps SResp s4 = s_pidx s3 :: comps SResp s3) by (rewrite I3; reflexivity).
  assert (G4 : good e s4).
  { destruct G3 as [A B C D Tw]. constructor; [destruct A; constructor; assumption|exact B| |exact D|exact Tw].
    destruct S3 as [X Y]. unfold once. rewrite C4. change (s_idx SResp s4) with (s_pidx s3). cbn [s_idx] in Y. split.
    - constructor; [intro H; specialize (Y _ H); lia|exact X].
    - intros k [<-|Hk]; [right|left; auto]. split; [reflexivity|]. exists t3. change (s_idx SResp s4) with (s_pidx s3). rewrite I3.
      split; [exact T3|]. split; [cbn [x_dir]; congruence|]. change (ending SResp (d_state (s_resp s3)) = true). congruence. }
  assert (L4 : live (s_pidx s4) s4) by (red; change (tx_get (s_pidx s3) (s_txs s3) <> None); congruence).
  pose proof (receiver_ok SResp s4 L4) as Rok.
  assert (R5 : rel 0 SResp e s4 (snd (receiver_finalize_clear SResp e s4))).
  { apply (ok_receiver_finalize_clear 0 SResp false (s_pidx s4)); [reflexivity|discriminate]. }
  destruct (receiver_finalize_clear SResp e s4) as [[u5|x| |] s5]; cbn [fst snd] in *; try discriminate.
  apply Tail; [exact (rel_good _ _ _ _ _ R5 (or_introl eq_refl) G4)|rewrite (rl_pidx _ _ _ _ _ R5); symmetry; exact I3|].
  assert (T4 : tx_get (s_pidx s4) (s_txs s4) = Some t3) by (change (tx_get (s_pidx s3) (s_txs s3) = Some t3); congruence).
  destruct (rl_txs _ _ _ _ _ R5 _ t3 T4) as (t5 & T5 & K5 & _). specialize (K5 eq_refl). pose proof (kp_own _ _ _ _ K5 eq_refl) as P5. cbn [x_dir] in P5.
  exists t5. rewrite (rl_pidx _ _ _ _ _ R5). split; [exact T5|]. congruence.
Qed.

(** ** The starts *)
Lemma idle_strict sd s : good e s -> ending sd (d_state (s_dir sd s)) = false -> strict sd s.
Proof using.
  intros G En. assert (O : once sd s) by (destruct sd; apply G). destruct O as [A B]. split; [exact A|]. intros i Hi.
  destruct (B i Hi) as [?|[_ (t & _ & _ & Q)]]; [assumption|congruence].
Qed.
Lemma request_idle_good s : good e s -> d_state (s_req s) = StIdle -> good e (snd (request_idle e s)).
Proof using Acc.
  intros G En. unfold request_idle. unfold bind at 1, input. unfold bind at 1, get_d. destruct (_ && _); [exact G|].
  set (pre := (upd_d SReq (fun d => set_d_left None (set_d_clen None d)) ;; modify (fun s => set_s_chunk_idx (s_chunk_count s) s)) ;;
              (set_state SReq StLine ;; need_tx SReq ;; set_progress SReq PLine)).
  assert (S : strict SReq s) by (apply idle_strict; [exact G|cbn [s_dir]; now rewrite En]).
  assert (R : rel 1 SReq e s (snd (pre e s))).
  { refine ((_ : ok 1 SReq false (s_ridx s) pre) e s eq_refl ltac:(discriminate)). unfold pre. ok_go. }
  assert (Gp : good e (snd (pre e s))) by (eapply rel_good_strict; eauto).
  assert (E : snd ((upd_d SReq (fun d0 => set_d_left None (set_d_clen None d0));; modify (fun s0 => set_s_chunk_idx (s_chunk_count s0) s0);; ignore state_request_start) e s) =
              snd ((pre ;; let* s := get in tx_hook HRequestStart (s_ridx s)) e s)).
  { unfold pre, state_request_start, ignore, bind, upd_d, modify, get. cbn beta iota. cbn [snd].
    set (s1 := set_s_chunk_idx _ _). unfold set_state, upd_d, modify. set (s2 := set_s_dir _ _ _). 
    destruct (need_tx SReq e s2) as [[a|x| |] s3]; try reflexivity. destruct (set_progress SReq PLine e s3) as [[a'|x| |] s4]; try reflexivity.
    destruct (tx_hook HRequestStart (s_ridx s4) e s4) as [[b|x| |] s5]; reflexivity. }
  rewrite E. clear E. unfold bind at 1. destruct (pre e s) as [[a|x| |] s1]; cbn [snd] in Gp |- *; try exact Gp.
  clear R. revert s1 Gp. apply pres_get. intro. apply pres_hook; [reflexivity|reflexivity|left; discriminate].
Qed.
Lemma state_response_start_good s : good e s -> strict SResp s -> good e (snd (state_response_start e s)).
Proof using Acc Cap Keep.
  intros G S. unfold state_response_start.
  set (br := fun t : tx => if x_is09 t then
     mod_txd SResp (fun d => set_t_prog PBody (set_t_cep CeNone (set_t_coding CdIdentity d))) ;; set_state SResp StStreamClose ;; upd_d SResp (set_d_left None)
   else set_progress SResp PLine ;; set_state SResp StLine).
  set (rest := fun _ : unit => (let* s := get in tx_hook HResponseStart (s_pidx s)) ;; let* t := the_tx SResp in let* d := get_d SReq in
    when (negb (is_some (x_method t)) && negb (is_some (x_uri t)) && pstate_eqb (d_state d) StLine) (log LvWarning "REQUEST_LINE_INCOMPLETE")).
  change (good e (snd ((let* t := need_tx SResp in bind (br t) rest) e s))). rewrite <- bind_bind. 
  assert (R : rel 1 SResp e s (snd ((let* t := need_tx SResp in br t) e s))).
  { refine ((_ : ok 1 SResp false (s_pidx s) (let* t := need_tx SResp in br t)) e s eq_refl ltac:(discriminate)). apply ok_need. intro t. unfold br. destruct (x_is09 t); [|ok_go].
    apply ok_bind; [|intro; ok_go]. unfold mod_txd. ok_body tt. }
  assert (Gp : good e (snd ((let* t := need_tx SResp in br t) e s))) by (eapply rel_good_strict; eauto).
  unfold bind at 1. destruct ((let* t := need_tx SResp in br t) e s) as [[a|x| |] s1]; cbn [snd] in Gp |- *; try exact Gp.
  clear R. revert s1 Gp. unfold rest. apply pres_bind; [apply pres_get; intro; apply pres_hook; [reflexivity|reflexivity|left; discriminate]|]. intro.
  apply (pres_ok _ SResp). intro i. ok_go.
Qed.
Lemma response_idle_good s : good e s -> d_state (s_resp s) = StIdle -> good e (snd (response_idle e s)).
Proof using Acc Cap Keep.
  intros G En. unfold response_idle. unfold bind at 1, input. destruct (pd_is_empty _); [exact G|]. unfold bind at 1.
  assert (S : strict SResp s) by (apply idle_strict; [exact G|cbn [s_dir]; now rewrite En]).
  destruct (good_need SResp s G) as [(t & s1 & -> & R & T)| ->]; [|exact G].
  assert (G1 : good e s1) by (eapply rel_good; eauto). assert (S1 : strict SResp s1) by (eapply rel_strict; eauto; apply G).
  clear s G En R S. cbn [s_idx] in T.
  assert (K : forall s, good e s -> strict SResp s -> good e (snd ((upd_d SResp (fun d => set_d_left None (set_d_clen None d));; state_response_start) e s))).
  { intros s G S. unfold bind at 1. set (u := upd_d SResp _). assert (R : rel 0 SResp e s (snd (u e s))).
    { refine ((_ : ok 0 SResp false (s_pidx s) u) e s eq_refl ltac:(discriminate)). unfold u. ok_go. }
    destruct (u e s) as [[a|x| |] s']; cbn [snd] in R |- *; [|exact (rel_good _ _ _ _ _ R (or_introl eq_refl) G)..].
    apply state_response_start_good; [exact (rel_good _ _ _ _ _ R (or_introl eq_refl) G)|eapply rel_strict; eauto; apply G]. }
  set (k := (_ ;; state_response_start)) in *. clearbody k.
  destruct (prog_eqb (t_prog (x_req t)) PNotStarted) eqn:Pn; cbn [when]; [|unfold bind, ret; now apply K].
  apply prog_eqb_iff in Pn. unfold bind at 1. unfold bind at 1.
  assert (R2 : rel 0 SResp e s1 (snd (log LvError "UNABLE_TO_MATCH_RESPONSE_TO_REQUEST" e s1))).
  { refine ((_ : ok 0 SResp false (s_pidx s1) (log _ _)) e s1 eq_refl ltac:(discriminate)). ok_go. }
  destruct (log _ _ e s1) as [[a|x| |] s2]; cbn [snd] in R2; [|exact (rel_good _ _ _ _ _ R2 (or_introl eq_refl) G1)..].
  assert (G2 : good e s2) by exact (rel_good _ _ _ _ _ R2 (or_introl eq_refl) G1). assert (S2 : strict SResp s2) by (eapply rel_strict; eauto; apply G1).
  destruct (rl_txs _ _ _ _ _ R2 _ t T) as (t2 & T2 & K2 & _). rewrite <- (rl_pidx _ _ _ _ _ R2) in T2. specialize (K2 eq_refl).
  pose proof (kp_other _ _ _ _ K2) as P2. cbn in P2. rewrite Pn in P2.
  unfold bind at 1, mod_tx. assert (L2 : live (s_pidx s2) s2) by (unfold live; congruence). unfold bind at 1.
  destruct (need_live SResp s2 L2) as (t2' & E' & _ & ->). cbn [s_idx] in E'. rewrite T2 in E'. injection E' as <-.
  unfold bind at 1, get, put_tx, modify. cbn beta iota. cbn [s_idx].
  match goal with |- context [tx_set _ ?x _] => set (t3 := x) end. set (s3 := set_s_txs (tx_set (s_pidx s2) t3 (s_txs s2)) s2).
  assert (P3 : t_prog (x_req t3) = PComplete) by reflexivity. assert (O3 : t_prog (x_resp t3) = t_prog (x_resp t2)) by reflexivity.
  assert (T3 : forall j, tx_get j (s_txs s3) = if j =? s_pidx s2 then Some t3 else tx_get j (s_txs s2)).
  { intro j. unfold s3. cbn [s_txs set_s_txs]. rewrite tx_get_set. destruct (j =? s_pidx s2) eqn:Ej; [|reflexivity]. apply N.eqb_eq in Ej. subst j. now rewrite T2. }
  rewrite request_next_eval. destruct G2 as [P R Rs V Tw].
  assert (Lt : s_ridx s2 <= s_pidx s2).
  { destruct (N.le_gt_cases (s_ridx s2) (s_pidx s2)) as [H|H]; [exact H|]. elim (pa_begun _ _ P (s_pidx s2) t2 ltac:(lia) T2 P2). }
  assert (Lr : live (s_ridx s2) s2). { destruct (N.eq_dec (s_ridx s2) (s_pidx s2)) as [->|Q]; [exact L2|]. apply (pa_live _ _ P). lia. }
  change (s_ridx s3) with (s_ridx s2). change (s_pidx s3) with (s_pidx s2). rewrite (next_req s2 P Lr).
  set (s4 := set_s_ridx _ _). assert (X1 : s_txs s4 = s_txs s3) by (unfold s4; destruct (_ <? _); reflexivity).
  assert (X2 : s_ridx s4 = s_ridx s2 + 1) by (unfold s4; destruct (_ <? _); reflexivity).
  assert (X3 : s_pidx s4 = s_pidx s2) by (unfold s4; destruct (_ <? _); reflexivity).
  assert (X4 : s_trace s4 = s_trace s2) by (unfold s4; destruct (_ <? _); reflexivity).
  assert (X5 : s_req s4 = s_req s2 /\ s_resp s4 = s_resp s2) by (unfold s4; destruct (_ <? _); split; reflexivity).
  assert (C4 : forall sd, comps sd s4 = comps sd s2) by (intro sd; apply comps_same; now left).
  assert (Len : length (s_txs s4) = length (s_txs s2)) by (rewrite X1; unfold s3; cbn [s_txs set_s_txs]; apply length_set).
  assert (Lv : forall j, live j s2 -> live j s4).
  { intros j. unfold live. rewrite X1, T3. destruct (j =? s_pidx s2); [discriminate|auto]. }
  clearbody s4. assert (S4 : strict SResp s4).
  { destruct S2 as [A B]. unfold strict. rewrite C4. cbn [s_idx]. rewrite X3. now split. }
  apply K; [|exact S4]. constructor.
  - destruct P as [A B C D F]. constructor.
    + intros j Hj. rewrite X2, X3 in Hj. apply Lv. destruct (N.eq_dec j (s_ridx s2)) as [->|Q]; [exact Lr|]. apply A. lia.
    + intros j u Hj. rewrite X2, X3 in Hj. rewrite X1, T3. replace j with (s_pidx s2) by lia. rewrite N.eqb_refl. intro Q. injection Q as <-. congruence.
    + now rewrite Len.
    + intros j Lj. rewrite X2, X3. unfold live in Lj. rewrite X1, T3 in Lj. destruct (j =? s_pidx s2) eqn:Q; [apply N.eqb_eq in Q; lia|]. specialize (D j Lj). lia.
    + intros j u Hj. rewrite X3 in Hj. rewrite X1, T3. destruct (N.eqb_spec j (s_pidx s2)) as [?|_]; [lia|]. now apply F.
  - apply strict_once. destruct R as [A B]. unfold strict. rewrite C4. split; [exact A|]. intros i Hi. cbn [s_idx]. rewrite X2. destruct (B i Hi) as [?|[-> _]]; cbn [s_idx] in *; lia.
  - now apply strict_once.
  - destruct X5 as [Y1 Y2]. destruct V as [V1 V2]. split; [now rewrite Y1|now rewrite Y2].
  - intros Fl i. specialize (Tw Fl i). rewrite (tcs_same i s2 s4 X4), X2, X3. unfold below in *. destruct (N.ltb_spec i (s_ridx s2)), (N.ltb_spec i (s_ridx s2 + 1)); lia.
Qed.
(** ** The states in which a message ends *)
Definition presN {A} (sd : side) (m : M A) : Prop :=
  forall s, good e s -> ending sd (d_state (s_dir sd s)) = true -> good e (snd (m e s)).
Definition keepsN {A} (sd : side) (m : M A) : Prop := forall i, ok 0 sd false i m.
Lemma presN_bind A B sd (m : M A) (k : A -> M B) : keepsN sd m -> (forall a, presN sd (k a)) -> presN sd (bind m k).
Proof using.
  intros H K s G En. unfold bind. pose proof (H (s_idx sd s) e s eq_refl ltac:(discriminate)) as R.
  assert (G' : good e (snd (m e s))) by exact (rel_good _ _ _ _ _ R (or_introl eq_refl) G). pose proof (rl_state _ _ _ _ _ R eq_refl) as D.
  destruct (m e s) as [[a|x| |] s']; cbn [snd] in *; try exact G'. apply K; [exact G'|congruence].
Qed.
Lemma presN_keeps A sd (m : M A) : keepsN sd m -> presN sd m.
Proof using. intros H s G _. now apply (pres_ok _ sd). Qed.
Lemma presN_request : presN SReq state_request_complete.
Proof using Acc Cap Keep. intros s G En. now apply state_request_complete_good. Qed.
Lemma presN_response : presN SResp state_response_complete.
Proof using Acc Cap Keep. intros s G En. now apply state_response_complete_good. Qed.
Ltac pn := repeat first [ exact presN_request | exact presN_response
  | match goal with
    | |- presN _ (if ?b then _ else _) => destruct b
    | |- presN _ (match ?l with [] => _ | _ => _ end) => destruct l
    | |- presN _ (match ?l with POk _ _ => _ | _ => _ end) => destruct l
    end
  | (apply presN_keeps; intro; solve [ok_go])
  | (apply presN_bind; [intro; ok_go|intro]) ].
Lemma request_finalize_good : presN SReq request_finalize.
Proof using Acc Cap Keep. unfold request_finalize, request_finalize_work, request_finalize_line. pn. Qed.
Lemma connect_probe_good : presN SReq request_connect_probe_data.
Proof using Acc Cap Keep. unfold request_connect_probe_data. pn. Qed.
Lemma response_finalize_good : presN SResp response_finalize.
Proof using Acc Cap Keep. unfold response_finalize, response_finalize_work. pn. Qed.

(** ** The loop *)
Lemma pres_handle sd : pres (handle_state sd).
Proof using Acc Cap Keep.
  intros s G. destruct sd; cbn [handle_state by_side].
  - destruct (pstate_eqb (d_state (s_req s)) StIdle) eqn:Ei.
    + assert (E : d_state (s_req s) = StIdle) by (destruct (d_state (s_req s)); (reflexivity || discriminate)).
      unfold handle_request_state, bind, get_d. cbn [s_dir]. rewrite E. now apply request_idle_good.
    + assert (Ni : d_state (s_req s) <> StIdle) by (intro Q; rewrite Q in Ei; discriminate).
      destruct (ending SReq (d_state (s_req s))) eqn:En.
      * unfold handle_request_state, bind, get_d. cbn [s_dir]. destruct (d_state (s_req s)) eqn:E; try discriminate; (apply request_finalize_good || apply connect_probe_good); try exact G; cbn [s_dir]; now rewrite E.
      * eapply rel_good; [apply ok_handle_request; assumption|right; exact En|exact G].
  - destruct (pstate_eqb (d_state (s_resp s)) StIdle) eqn:Ei.
    + assert (E : d_state (s_resp s) = StIdle) by (destruct (d_state (s_resp s)); (reflexivity || discriminate)).
      unfold handle_response_state, bind, get_d. cbn [s_dir]. rewrite E. now apply response_idle_good.
    + assert (Ni : d_state (s_resp s) <> StIdle) by (intro Q; rewrite Q in Ei; discriminate).
      destruct (ending SResp (d_state (s_resp s))) eqn:En.
      * unfold handle_response_state, bind, get_d. cbn [s_dir]. destruct (d_state (s_resp s)) eqn:E; try discriminate. apply response_finalize_good; try exact G; cbn [s_dir]; now rewrite E.
      * eapply rel_good; [apply ok_handle_response; assumption|right; exact En|exact G].
Qed.
Lemma keeps_after sd rc : keepsN sd (after_step sd rc).
Proof using. intro i. unfold after_step. destruct rc as [|[]]; ok_go. Qed.
Lemma pres_step sd : pres (step sd).
Proof using Acc Cap Keep.
  unfold step. apply pres_bind; [apply (pres_ok _ sd); intro; ok_go|]. intro p. apply pres_bind; [apply (pres_ok _ sd); intro; ok_go|]. intro d.
  destruct (_ && _); [apply (pres_ok _ sd); intro; ok_go|]. apply pres_bind; [apply pres_try, pres_handle|].
  intros [u|x]; [|apply (pres_ok _ sd), keeps_after]. apply pres_bind; [apply (pres_ok _ sd); intro; ok_go|]. intro d'. destruct (sstate_eqb _ _); [apply pres_ret|].
  apply pres_bind; [apply pres_try, (pres_ok _ sd); intro; apply ok_handle_state_change|]. intro rc. apply (pres_ok _ sd), keeps_after.
Qed.
Lemma pres_loop sd n : pres (data_loop sd n).
Proof using Acc Cap Keep.
  induction n as [|n IH]; cbn [data_loop]; [apply pres_fuel|]. apply pres_bind; [apply pres_step|]. intros [x|]; [apply pres_ret|exact IH].
Qed.
Lemma pres_mark sd : pres (mark_gap sd).
Proof using.
  intros s G. unfold mark_gap. unfold bind at 1, get. unfold bind at 1.
  pose proof (ok_cur 0 sd false (s_idx sd s) e s eq_refl ltac:(discriminate)) as R.
  assert (Q : match fst (cur_tx sd e s) with ROk (Some t) => tx_get (s_idx sd (snd (cur_tx sd e s))) (s_txs (snd (cur_tx sd e s))) = Some t | ROk None => True | _ => False end).
  { unfold cur_tx. destruct (tx_get (s_idx sd s) (s_txs s)) eqn:E; cbn [fst snd]; [exact E|]. destruct (_ <=? _); cbn [fst snd]; [exact I|].
    cbn [s_txs set_s_txs]. rewrite tx_get_put. replace (s_idx sd (set_s_txs _ s)) with (s_idx sd s) by (destruct sd; reflexivity). now rewrite N.eqb_refl. }
  destruct (cur_tx sd e s) as [[[t|]|x| |] s1]; cbn [fst snd] in *; try contradiction; try exact (rel_good _ _ _ _ _ R (or_introl eq_refl) G).
  assert (G1 : good e s1) by exact (rel_good _ _ _ _ _ R (or_introl eq_refl) G).
  unfold bind at 1. set (m := mod_tx sd _).
  assert (R2 : rel 0 sd e s1 (snd (m e s1))).
  { refine ((_ : ok 0 sd false (s_idx sd s1) m) e s1 eq_refl ltac:(discriminate)). unfold m. apply ok_mod_tx. intro. apply keep_of; reflexivity. }
  destruct (m e s1) as [[a|x| |] s2]; cbn [snd] in R2; [|exact (rel_good _ _ _ _ _ R2 (or_introl eq_refl) G1)..].
  assert (G2 : good e s2) by exact (rel_good _ _ _ _ _ R2 (or_introl eq_refl) G1).
  destruct (_ && prog_eqb _ _) eqn:Pn; [|exact G2]. apply andb_prop in Pn. destruct Pn as [_ Pn]. apply prog_eqb_iff in Pn.
  assert (S1 : strict sd s1) by (eapply once_strict; [destruct sd; apply G1|exact Q|congruence]).
  assert (S2 : strict sd s2) by (eapply rel_strict; eauto; apply G1).
  eapply rel_good_strict; [|exact G2|exact S2].
  refine ((_ : ok 1 sd false (s_idx sd s2) (set_progress sd PGap ;; set_status sd SsError ;; ret (Some SsError))) e s2 eq_refl ltac:(discriminate)). ok_go.
Qed.
Lemma pres_call sd c : pres (data_call sd c).
Proof using Acc Cap Keep.
  unfold data_call. apply pres_bind; [apply (pres_ok _ sd); intro; ok_go|]. intro. apply pres_bind; [apply (pres_ok _ sd); intro; ok_go|]. intro.
  apply pres_bind; [apply (pres_ok _ sd); intro; ok_go|]. intro d.
  assert (K : pres (if pd_is_empty c && negb (sstate_eqb (d_status d) SsClosed) then log LvError "ZERO_LENGTH_DATA_CHUNKS" ;; ret SsClosed
      else
        modify (count_data sd (pd_len c)) ;;
        if sstate_eqb (d_status d) SsTunnel then ret SsTunnel
        else
          by_side sd (let* r := get_d SResp in when (sstate_eqb (d_status r) SsDataOther) (set_status SResp SsData)) (ret tt) ;;
          let* early := (if pd_is_gap c then mark_gap sd else ret None) in
          match early with
          | Some x => ret x
          | None => let* s := get in data_loop sd (loop_fuel sd s)
          end)).
  { destruct (_ && _); [apply (pres_ok _ sd); intro; ok_go|]. apply pres_bind; [destruct sd; cbn [count_data]; [apply (pres_ok _ SReq)|apply (pres_ok _ SResp)]; intro; ok_go|]. intro.
    destruct (sstate_eqb _ _); [apply pres_ret|]. apply pres_bind; [destruct sd; cbn [by_side]; [apply (pres_ok _ SReq); intro; ok_go|apply pres_ret]|]. intro.
    apply pres_bind; [destruct (pd_is_gap c); [apply pres_mark|apply pres_ret]|]. intros [x|]; [apply pres_ret|]. apply pres_get. intro. apply pres_loop. }
  destruct (d_status d); first [exact K|apply (pres_ok _ sd); intro; ok_go].
Qed.
Lemma pres_for_each A (f : A -> M unit) l : (forall a, pres (f a)) -> pres (for_each f l).
Proof using. intro H. induction l as [|a l IH]; cbn [for_each]; [apply pres_ret|]. apply pres_bind; [apply H|intro; exact IH]. Qed.
Lemma pres_op o : (forall i, o <> OpRemove i) -> pres (run_op o).
Proof using Acc Cap Keep.
  intros Nr. assert (Cl : forall sd, pres (close_status sd)) by (intro sd; unfold close_status; apply (pres_ok _ sd); intro; ok_go).
  destruct o; cbn [run_op].
  - apply pres_get. intro s. apply (pres_ok _ SReq). intro. ok_go.
  - apply pres_bind; [apply pres_call|intro; apply pres_ret].
  - apply pres_bind; [apply pres_call|intro; apply pres_ret].
  - apply pres_bind; [apply Cl|intro]. apply pres_bind; [apply pres_call|intro; apply pres_ret].
  - apply pres_bind; [apply Cl|intro]. apply pres_bind; [apply Cl|intro]. apply pres_bind; [apply pres_call|intro]. apply pres_bind; [apply pres_call|intro].
    intros s G. unfold bind at 1, ask. revert s G. apply pres_bind; [|intro; apply pres_ret]. destruct (c_flush (e_cfg e)) eqn:Fl; cbn [when]; [|apply pres_ret].
    unfold flush_incomplete_transactions. intros s G. unfold bind at 1, ask. revert s G. apply pres_get. intro s0. apply pres_for_each. intro i.
    rewrite Keep. cbn [when]. apply pres_bind; [apply pres_ignore; apply pres_hook; [reflexivity|reflexivity|now right]|intro; apply pres_ret].
  - elim (Nr i eq_refl).
Qed.
Lemma pres_ops l : Forall (fun o => forall i, o <> OpRemove i) l -> pres (run_ops l).
Proof using Acc Cap Keep.
  induction 1 as [|o l Ho _ IH]; cbn [run_ops]; [apply pres_ret|]. apply pres_bind; [now apply pres_op|intro]. apply pres_bind; [exact IH|intro; apply pres_ret].
Qed.
Lemma good_new : good e st_new.
Proof using Cap Keep.
  constructor.
  - constructor; cbn; intros; [lia|lia|lia|unfold live in *; cbn in *; congruence|lia].
  - split; [constructor|intros i []].
  - split; [constructor|intros i []].
  - split; reflexivity.
  - intros _ i. cbn. lia.
Qed.
Lemma history_once l : Forall (fun o => forall i, o <> OpRemove i) l -> good e (snd (history e l)).
Proof using Acc Cap Keep. intro H. apply pres_ops; [exact H|exact good_new]. Qed.
End Once.
Lemma runs_bound (P : event -> bool) (l : list event) i : NoDup (map ev_tx (filter P l)) -> (length (filter (fun ev => P ev && (ev_tx ev =? i)%N) l) <= 1)%nat.
Proof.
  induction l as [|a l IH]; intro H; cbn [filter] in *; [cbn; lia|]. destruct (P a) eqn:Pa; cbn [andb]; [|auto]. cbn [map] in H. inversion H as [|x y Nx Nd]; subst.
  destruct (ev_tx a =? i) eqn:E; [|auto]. apply N.eqb_eq in E. cbn [length].
  replace (filter _ l) with (@nil event); [cbn; lia|]. symmetry. clear IH H Nd. induction l as [|b l IH]; cbn [filter] in *; [reflexivity|].
  destruct (P b) eqn:Pb; cbn [andb]; [|auto]. cbn [map In] in Nx. destruct (ev_tx b =? i) eqn:Eb; [apply N.eqb_eq in Eb; elim Nx; left; congruence|]. apply IH. tauto.
Qed.
Lemma comps_events sd s : comps sd s = rev (map ev_tx (filter (fun ev => comp_hook sd (ev_hook ev)) (events s))).
Proof.
  unfold comps, events. generalize (s_trace s). intro l. induction l as [|[a x] l IH]; [reflexivity|]. cbn [map rev fst filter].
  rewrite filter_app, map_app, rev_app_distr. cbn [filter]. destruct (comp_hook sd (ev_hook a)); cbn [map rev app fst]; now rewrite IH.
Qed.
Lemma once_runs sd s i : once sd s -> (length (filter (fun ev => comp_hook sd (ev_hook ev) && (ev_tx ev =? i)%N) (events s)) <= 1)%nat.
Proof. intros [H _]. apply runs_bound. rewrite comps_events in H. apply NoDup_rev in H. now rewrite rev_involutive in H. Qed.
Lemma runs_comp sd h s i : h = (match sd with SReq => HRequestComplete | SResp => HResponseComplete end) ->
  filter (fun ev => match ev_hook ev, h with
                    | HTransactionComplete, HTransactionComplete | HResponseComplete, HResponseComplete | HRequestComplete, HRequestComplete => ev_tx ev =? i
                    | _, _ => false
                    end) (events s) = filter (fun ev => comp_hook sd (ev_hook ev) && (ev_tx ev =? i)) (events s).
Proof. intros ->. apply filter_ext. intro a. destruct sd, (ev_hook a); reflexivity. Qed.
Lemma completions_at_most_once e l i : accepting e -> c_auto_destroy (e_cfg e) = false -> c_max_tx (e_cfg e) < 2 ^ 64 ->
  Forall (fun o => forall j, o <> OpRemove j) l ->
  let runs h := filter (fun ev => match ev_hook ev, h with
                    | HTransactionComplete, HTransactionComplete | HResponseComplete, HResponseComplete | HRequestComplete, HRequestComplete => ev_tx ev =? i
                    | _, _ => false
                    end) (events (snd (history e l))) in
  (length (runs HRequestComplete) <= 1 /\ length (runs HResponseComplete) <= 1)%nat.
Proof.
  intros A K C F runs. pose proof (history_once e A K C l F) as G. 
  split; [pose proof (runs_comp SReq HRequestComplete (snd (history e l)) i eq_refl) as Q|pose proof (runs_comp SResp HResponseComplete (snd (history e l)) i eq_refl) as Q];
    unfold runs; rewrite Q; apply once_runs, G.
Qed.
Lemma transaction_complete_twice e l i : accepting e -> c_auto_destroy (e_cfg e) = false -> c_max_tx (e_cfg e) < 2 ^ 64 -> c_flush (e_cfg e) = false ->
  Forall (fun o => forall j, o <> OpRemove j) l ->
  let runs h := filter (fun ev => match ev_hook ev, h with
                    | HTransactionComplete, HTransactionComplete | HResponseComplete, HResponseComplete | HRequestComplete, HRequestComplete => ev_tx ev =? i
                    | _, _ => false
                    end) (events (snd (history e l))) in
  (length (runs HTransactionComplete) <= 2)%nat.
Proof.
  intros A K C Fl F runs. pose proof (go_twice _ _ (history_once e A K C l F) Fl i) as G. unfold tcs, below in G. unfold runs, events.
  set (s := snd (history e l)) in *.
  assert (Q : forall (l : list (event * status)) (P : event -> bool), length (filter P (rev (map fst l))) = length (filter (fun x => P (fst x)) l)).
  { intros l0 P. induction l0 as [|a l0 IH]; [reflexivity|]. cbn [map rev filter]. rewrite filter_app, app_length, IH. cbn [filter].
    destruct (P (fst a)); cbn [length]; lia. }
  rewrite Q. etransitivity; [etransitivity; [|exact G]|destruct (i <? s_ridx s), (i <? s_pidx s); lia].
  apply Nat.eq_le_incl. reflexivity.
Qed.
