(** The callbacks about a message run for the transaction started last. *)
From Verif Require Import Base ModelUtil ModelState ModelTx ModelConn SpecConn SpecFlow.
From Verif Require Import ProofsBase ProofsConn ProofsCore ProofsHonest ProofsRel.

Definition tr := list (event * status).
(** The transaction started last; newest first. *)
Fixpoint last (sd : side) (l : tr) : option N :=
  match l with
  | [] => None
  | x :: r => match sd, ev_hook (fst x) with SReq, HRequestStart | SResp, HResponseStart => Some (ev_tx (fst x)) | _, _ => last sd r end
  end.
Fixpoint tok (sd : side) (l : tr) : Prop :=
  match l with
  | [] => True
  | x :: r => tok sd r /\ (about (ev_hook (fst x)) = Some sd -> last sd r = Some (ev_tx (fst x)))
  end.
Lemma hook_eq_dec (a b : hook) : {a = b} + {a <> b}. Proof. decide equality. Qed.
Lemma last_spec sd l i : last sd l = Some i -> exists a x b, l = a ++ x :: b /\ ev_hook (fst x) = start_of sd /\ ev_tx (fst x) = i /\ Forall (fun y => ev_hook (fst y) <> start_of sd) a.
Proof.
  induction l as [|x l IH]; cbn [last]; [discriminate|]. intro H.
  destruct (hook_eq_dec (ev_hook (fst x)) (start_of sd)) as [E|E].
  - exists [], x, l. split; [reflexivity|]. split; [exact E|]. split; [|constructor]. destruct sd; cbn [start_of] in E; rewrite E in H; congruence.
  - assert (H' : last sd l = Some i) by (destruct sd, (ev_hook (fst x)); cbn [start_of] in E; congruence). destruct (IH H') as (a & y & b & -> & Y1 & Y2 & Y3).
    exists (x :: a), y, b. split; [reflexivity|]. split; [exact Y1|]. split; [exact Y2|]. now constructor.
Qed.
Lemma tok_split sd a x b : tok sd (a ++ x :: b) -> about (ev_hook (fst x)) = Some sd -> last sd b = Some (ev_tx (fst x)).
Proof. induction a as [|y a IH]; cbn [app tok]; [tauto|]. intros [H _]. auto. Qed.
Lemma tok_announced sd s : tok sd (s_trace s) -> announced sd (events s).
Proof.
  intros T before ev after E A. unfold events in E. apply (f_equal (@rev event)) in E. rewrite rev_involutive, rev_app_distr in E. cbn [rev] in E.
  rewrite <- app_assoc in E. cbn [app] in E. apply map_eq_app in E. destruct E as (l1 & l2 & E & M1 & M2). apply map_eq_cons in M2. destruct M2 as (x & l3 & -> & M2 & M3).
  rewrite E in T. apply tok_split in T; [|now rewrite M2]. apply last_spec in T. destruct T as (a & y & b & -> & Y1 & Y2 & Y3).
  rewrite map_app in M3. cbn [map] in M3. apply (f_equal (@rev event)) in M3. rewrite rev_involutive, rev_app_distr in M3. cbn [rev] in M3. rewrite <- app_assoc in M3. cbn [app] in M3.
  exists (rev (map fst b)), (fst y), (rev (map fst a)). split; [now symmetry|]. split; [exact Y1|]. split; [congruence|].
  apply Forall_rev. clear -Y3. induction Y3; cbn [map]; constructor; auto.
Qed.
Lemma about_owner h : special h = false -> about h = owner h.
Proof. destruct h; (reflexivity || discriminate). Qed.
Lemma last_app sd (l r : tr) : Forall (fun x => special (ev_hook (fst x)) = false) l -> last sd (l ++ r) = last sd r.
Proof. induction 1 as [|x l H F IH]; [reflexivity|]. cbn [app last]. destruct sd, (ev_hook (fst x)); (exact IH || discriminate). Qed.
Lemma tok_app sd (l r : tr) i : tok sd r -> Forall (fun x => special (ev_hook (fst x)) = false /\ (owner (ev_hook (fst x)) = Some sd -> ev_tx (fst x) = i /\ last sd r = Some i)) l ->
  tok sd (l ++ r).
Proof.
  intros T F. induction F as [|x l [H1 H2] F IH]; [exact T|]. cbn [app tok]. split; [exact IH|]. intro A. rewrite about_owner in A by exact H1. destruct (H2 A) as [<- L].
  rewrite last_app; [exact L|]. eapply Forall_impl; [|exact F]. intros y [Y _]. exact Y.
Qed.

(** * Steps that say nothing about a message *)
Definition hush {A} (m : M A) : Prop := forall e s, recv_ok s ->
  recv_ok (snd (m e s)) /\ exists l, s_trace (snd (m e s)) = l ++ s_trace s /\ Forall (fun x => special (ev_hook (fst x)) = false /\ owner (ev_hook (fst x)) = None) l.
Lemma hush_pure A (m : M A) : (forall e s, recv_ok s -> recv_ok (snd (m e s)) /\ s_trace (snd (m e s)) = s_trace s) -> hush m.
Proof. intros H e s V. destruct (H e s V) as [A1 A2]. split; [exact A1|]. exists []. split; [exact A2|constructor]. Qed.
Lemma hush_bind A B (m : M A) (k : A -> M B) : hush m -> (forall a, hush (k a)) -> hush (bind m k).
Proof.
  intros H K e s V. unfold bind. destruct (H e s V) as (V1 & l & E & F). destruct (m e s) as [[a|x| |] s1]; cbn [snd] in *; try (split; [exact V1|]; exists l; split; assumption).
  destruct (K a e s1 V1) as (V2 & l2 & E2 & F2). split; [exact V2|]. exists (l2 ++ l). rewrite E2, E, app_assoc. split; [reflexivity|]. apply Forall_app. now split.
Qed.
Lemma hush_ignore A (m : M A) : hush m -> hush (ignore m).
Proof. intros H e s V. unfold ignore. specialize (H e s V). destruct (m e s) as [[a|x| |] s1]; exact H. Qed.
Lemma hush_try A (m : M A) : hush m -> hush (try m).
Proof. intros H e s V. unfold try. specialize (H e s V). destruct (m e s) as [[a|x| |] s1]; exact H. Qed.
Lemma hush_modify f : (forall s, s_trace (f s) = s_trace s /\ (recv_ok s -> recv_ok (f s))) -> hush (modify f).
Proof. intro H. apply hush_pure. intros e s V. split; [now apply H|apply H]. Qed.
Lemma hush_log l c : hush (log l c).
Proof. apply hush_pure. intros e s V. unfold log. cbn [snd]. destruct (_ <=? _); split; auto. Qed.
Lemma hush_cur sd : hush (cur_tx sd).
Proof. apply hush_pure. intros e s V. unfold cur_tx. destruct (tx_get _ _); [split; auto|]. destruct (_ <=? _); split; auto. Qed.
Lemma hush_ret A (a : A) : hush (ret a). Proof. apply hush_pure. intros; split; auto. Qed.
Lemma hush_fail A x : hush (@fail A x). Proof. apply hush_pure. intros; split; auto. Qed.
Lemma hush_panic A : hush (@panic A). Proof. apply hush_pure. intros; split; auto. Qed.
Lemma hush_need sd : hush (need_tx sd).
Proof. apply hush_bind; [apply hush_cur|]. intros [t|]; [apply hush_ret|apply hush_fail]. Qed.
Lemma hush_the sd : hush (the_tx sd).
Proof. apply hush_bind; [apply hush_cur|]. intros [t|]; [apply hush_ret|apply hush_panic]. Qed.
Lemma hush_get A (k : st -> M A) : (forall s, hush (k s)) -> hush (bind get k).
Proof. intros K e s V. unfold bind, get. now apply K. Qed.
Lemma hush_get_d sd : hush (get_d sd). Proof. apply hush_pure. intros; split; auto. Qed.
Lemma hush_input : hush input. Proof. apply hush_pure. intros; split; auto. Qed.
Lemma hush_upd sd f : (forall d, raw_hook (d_recv d) = true -> raw_hook (d_recv (f d)) = true) -> hush (upd_d sd f).
Proof. intro H. apply hush_modify. intro s. split; [destruct sd; reflexivity|]. intros [V1 V2]. destruct sd; split; cbn; auto. Qed.
Lemma hush_status sd x : hush (set_status sd x).
Proof. apply hush_upd. intros d H. exact H. Qed.
Lemma hush_mod_tx sd f : hush (mod_tx sd f).
Proof. unfold mod_tx. apply hush_bind; [apply hush_the|]. intro t. apply hush_get. intro s. unfold put_tx. apply hush_modify. intro; split; auto. Qed.
Lemma hush_send sd : hush (receiver_send_data sd).
Proof.
  unfold receiver_send_data. apply hush_bind; [apply hush_input|]. intro p. destruct (pd_callback_data p) as [d p'].
  apply hush_bind; [apply hush_modify; intro; split; auto|]. intro. apply hush_bind; [apply hush_need|]. intro. intros e s V. unfold bind, get.
  destruct (d_recv (s_dir sd s)) as [h|] eqn:E; [|exact (hush_ret _ tt e s V)]. unfold data_hook, call, bind.
  assert (R : raw_hook (Some h) = true) by (destruct V as [V1 V2]; destruct sd; cbn [s_dir] in E; rewrite E in *; assumption).
  assert (Q : forall A (m : M A) s1, (forall s1, snd (m e s1) = s1) -> recv_ok s1 ->
     s_trace s1 = (mk_ev h (s_idx sd s) (PlData d), e_cb e s (mk_ev h (s_idx sd s) (PlData d))) :: s_trace s ->
     recv_ok (snd (m e s1)) /\ exists l, s_trace (snd (m e s1)) = l ++ s_trace s /\ Forall (fun x => special (ev_hook (fst x)) = false /\ owner (ev_hook (fst x)) = None) l).
  { intros A m s1 Hm V1 T. rewrite Hm. split; [exact V1|]. eexists [_]. split; [exact T|]. constructor; [|constructor]. cbn [fst ev_hook]. destruct h; (discriminate R || (split; reflexivity)). }
  apply Q; [|exact V|reflexivity]. intro s1. unfold check. destruct (e_cb _ _ _); reflexivity.
Qed.
Lemma hush_change sd : hush (handle_state_change sd).
Proof.
  unfold handle_state_change. apply hush_bind; [apply hush_get_d|]. intro d. destruct (pstate_eqb _ _); [apply hush_ret|].
  apply hush_bind; [|intro; apply hush_upd; intros d0 H; exact H]. destruct (pstate_eqb _ _); [|apply hush_ret].
  apply hush_bind; [destruct sd; cbn [by_side]; [apply hush_the|apply hush_need]|]. intro t. apply hush_bind; [apply hush_modify; intro; split; auto|]. intro.
  destruct (t_prog _); try apply hush_ret; apply hush_upd; intros; destruct sd; reflexivity.
Qed.
Lemma hush_after sd rc : hush (after_step sd rc).
Proof.
  assert (S : forall (x y : sstate), hush (set_status sd x ;; ret (Some y))) by (intros; apply hush_bind; [apply hush_status|intro; apply hush_ret]).
  unfold after_step. destruct rc as [u|[]]; try apply hush_ret; try apply S.
  - apply hush_bind; [apply hush_ignore, hush_send|]. intro. apply S.
  - apply hush_bind; [apply hush_input|]. intro p. apply S.
  - apply hush_bind; [apply hush_ignore, hush_send|]. intro. apply S.
Qed.
Lemma hush_consume sd n : hush (consume sd n).
Proof.
  unfold consume. apply hush_bind; [apply hush_input|]. intro p. unfold set_input. apply hush_bind; [apply hush_modify; intro; split; auto|]. intro. apply hush_upd. intros d H. exact H.
Qed.

(** * Triples: errors lead to the invariant [inv], success to [Q] *)
Section Trip.
Variables (e : env) (inv : st -> Prop).
Definition trip {A} (P : st -> Prop) (m : M A) (Q : st -> Prop) : Prop :=
  forall s, P s -> match fst (m e s) with ROk _ => Q (snd (m e s)) | _ => inv (snd (m e s)) end.
Lemma trip_bind A B P Q R (m : M A) (k : A -> M B) : trip P m Q -> (forall a, trip Q (k a) R) -> trip P (bind m k) R.
Proof using. intros H K s HP. unfold bind. specialize (H s HP). destruct (m e s) as [[a|x| |] s1]; cbn [fst snd] in *; try exact H. exact (K a s1 H). Qed.
Lemma trip_all A (P Q : st -> Prop) (m : M A) : (forall s, P s -> Q (snd (m e s))) -> (forall s, Q s -> inv s) -> trip P m Q.
Proof using. intros H I s HP. specialize (H s HP). destruct (fst (m e s)); auto. Qed.
Lemma trip_ret A P (a : A) : trip P (ret a) P. Proof using. intros s HP. exact HP. Qed.
Lemma trip_fail A (P Q : st -> Prop) x : (forall s, P s -> inv s) -> trip P (@fail A x) Q. Proof using. intros H s HP. cbn. auto. Qed.
Lemma trip_panic A (P Q : st -> Prop) : (forall s, P s -> inv s) -> trip P (@panic A) Q. Proof using. intros H s HP. cbn. auto. Qed.
Lemma trip_post A (P Q Q' : st -> Prop) (m : M A) : trip P m Q -> (forall s, Q s -> Q' s) -> trip P m Q'.
Proof using. intros H I s HP. specialize (H s HP). destruct (fst (m e s)); auto. Qed.
Lemma trip_pre A (P P' Q : st -> Prop) (m : M A) : trip P m Q -> (forall s, P' s -> P s) -> trip P' m Q.
Proof using. intros H I s HP. apply H. auto. Qed.
Lemma trip_get A (P Q : st -> Prop) (k : st -> M A) : (forall s0, P s0 -> trip (fun s => P s /\ s = s0) (k s0) Q) -> trip P (bind get k) Q.
Proof using. intros K s HP. unfold bind, get. apply (K s HP). now split. Qed.
Lemma trip_when (P : st -> Prop) b m : trip P m P -> trip P (when b m) P.
Proof using. intro H. destruct b; [exact H|apply trip_ret]. Qed.
Lemma trip_snd A (P : st -> Prop) (m : M A) s : trip P m inv -> P s -> inv (snd (m e s)).
Proof using. intros H HP. specialize (H s HP). destruct (fst (m e s)); exact H. Qed.
Lemma trip_ignore A (P : st -> Prop) (m : M A) : trip P m inv -> trip P (ignore m) inv.
Proof using. intros H s HP. unfold ignore. specialize (H s HP). destruct (m e s) as [[a|x| |] s1]; exact H. Qed.
Lemma trip_try A (P : st -> Prop) (m : M A) : trip P m inv -> trip P (try m) inv.
Proof using. intros H s HP. unfold try. specialize (H s HP). destruct (m e s) as [[a|x| |] s1]; exact H. Qed.
End Trip.

(** * The response side *)
Section Resp.
Variable e : env.
Definition rn (i : N) (s : st) : Prop := recv_ok s /\ tok SResp (s_trace s) /\ last SResp (s_trace s) = Some i /\ s_pidx s = i.
Definition rw (s : st) : Prop := recv_ok s /\ tok SResp (s_trace s).
Definition ri (s : st) : Prop := rw s /\ (d_state (s_resp s) = StIdle \/ last SResp (s_trace s) = Some (s_pidx s)).
Lemma rn_ri i s : rn i s -> ri s.
Proof using. intros (A & B & C & D). split; [split; assumption|]. right. congruence. Qed.
Lemma tidy_tok lv x s s' : rel lv x e s s' -> rw s -> (x = SResp -> last SResp (s_trace s) = Some (s_pidx s)) ->
  rw s' /\ last SResp (s_trace s') = last SResp (s_trace s).
Proof using.
  intros R [V T] L. destruct (rl_trace _ _ _ _ _ R V) as (V' & l & E & F). unfold rw. rewrite E. split; [split; [exact V'|]|].
  - eapply (tok_app _ _ _ (s_pidx s) T). eapply Forall_impl; [|exact F]. intros a [S O]. split; [exact S|]. intro Oa. destruct (O _ Oa) as (Q1 & Q2 & _). destruct x; [discriminate|].
    split; [exact Q2|auto].
  - apply last_app. eapply Forall_impl; [|exact F]. intros a [S O]. exact S.
Qed.
Lemma rel_rn lv i s s' : rel lv SResp e s s' -> rn i s -> rn i s'.
Proof using.
  intros R (V & T & L & I). destruct (tidy_tok _ _ _ _ R) as [[V' T'] L']; [now split|intro; congruence|].
  pose proof (rl_pidx _ _ _ _ _ R). repeat split; try apply V'; congruence.
Qed.
Lemma rel_ri lv s s' : rel lv SReq e s s' -> ri s -> ri s'.
Proof using.
  intros R [W D]. destruct (tidy_tok _ _ _ _ R W) as [W' L']; [discriminate|]. split; [exact W'|]. rewrite L', (rl_pidx _ _ _ _ _ R).
  destruct (rl_ostate _ _ _ _ _ R) as [O|(O & _)]; [|discriminate]. cbn [other s_dir] in O. now rewrite O.
Qed.
(** Steps of the request side and neutral steps keep [ri]. *)
Lemma t_req A lv (m : M A) : (forall i, ok lv SReq false i m) -> trip e ri ri m ri.
Proof using. intro H. apply trip_all; [|auto]. intros s I. exact (rel_ri _ _ _ (H (s_ridx s) e s eq_refl ltac:(discriminate)) I). Qed.
Lemma t_own A lv i (m : M A) : (forall i, ok lv SResp false i m) -> trip e ri (rn i) m (rn i).
Proof using. intro H. apply trip_all; [|apply rn_ri]. intros s I. exact (rel_rn _ _ _ _ (H (s_pidx s) e s eq_refl ltac:(discriminate)) I). Qed.
Lemma hush_rw A (m : M A) s : hush m -> rw s -> rw (snd (m e s)) /\ last SResp (s_trace (snd (m e s))) = last SResp (s_trace s).
Proof using.
  intros H [V T]. destruct (H e s V) as (V' & l & E & F). unfold rw. rewrite E. split; [split; [exact V'|]|].
  - apply (tok_app _ _ _ 0 T). eapply Forall_impl; [|exact F]. intros a [S O]. split; [exact S|]. rewrite O. discriminate.
  - apply last_app. eapply Forall_impl; [|exact F]. intros a [S O]. exact S.
Qed.
Lemma t_quiet A (m : M A) : (forall i, ok 0 SResp false i m) -> hush m -> trip e ri ri m ri.
Proof using.
  intros H Hm. apply trip_all; [|auto]. intros s [W D]. destruct (hush_rw _ m s Hm W) as [W' L']. split; [exact W'|]. pose proof (H (s_pidx s) e s eq_refl ltac:(discriminate)) as R.
  rewrite L', (rl_pidx _ _ _ _ _ R). pose proof (rl_state _ _ _ _ _ R eq_refl) as Q. cbn [s_dir] in Q. now rewrite Q.
Qed.
Lemma t_frame (P : st -> Prop) f : (forall s, P s -> P (f s)) -> (forall s, P s -> ri s) -> trip e ri P (modify f) P.
Proof using. intros H I s HP. cbn. auto. Qed.
Lemma tx_hook_snd h i s : snd (tx_hook h i e s) = s \/ exists r, snd (tx_hook h i e s) = set_s_trace ((mk_ev h i PlNone, r) :: s_trace s) s /\ live i s.
Proof using.
  unfold tx_hook, bind, get. destruct (tx_get i (s_txs s)) eqn:E; [right|now left]. unfold call. exists (e_cb e s (mk_ev h i PlNone)). split; [|unfold live; congruence].
  unfold check. destruct (e_cb e s _); reflexivity.
Qed.
(** A hook that is not about responses. *)
Lemma hook_ri h i s : about h <> Some SResp -> h <> HResponseStart -> ri s -> ri (snd (tx_hook h i e s)).
Proof using.
  intros A B I. destruct (tx_hook_snd h i s) as [->|(r & -> & _)]; [exact I|]. destruct I as [[V T] D].
  assert (L : last SResp ((mk_ev h i PlNone, r) :: s_trace s) = last SResp (s_trace s)) by (cbn [last fst ev_hook]; destruct h; (reflexivity || congruence)).
  split; [split; [exact V|]|]; cbn [s_trace set_s_trace]; [split; [exact T|intro Q; elim (A Q)]|]. rewrite L. exact D.
Qed.
Lemma t_hook h i : about h <> Some SResp -> h <> HResponseStart -> trip e ri ri (tx_hook h i) ri.
Proof using. intros A B. apply trip_all; [|auto]. intros s. now apply hook_ri. Qed.
Lemma t_hook_own h i j : about h = Some SResp \/ (about h = None /\ h <> HResponseStart) -> (about h = Some SResp -> i = j) -> trip e ri (rn i) (tx_hook h j) (rn i).
Proof using.
  intros A B. apply trip_all; [|apply rn_ri]. intros s I. destruct (tx_hook_snd h j s) as [->|(r & -> & _)]; [exact I|]. destruct I as (V & T & L & X).
  assert (Q : last SResp ((mk_ev h j PlNone, r) :: s_trace s) = last SResp (s_trace s)).
  { cbn [last fst ev_hook]. destruct h; try reflexivity. destruct A as [A|[_ A]]; [discriminate|congruence]. }
  split; [exact V|]. cbn [s_trace set_s_trace]. rewrite Q. repeat split; try assumption. intro Ah. cbn [fst ev_hook ev_tx] in *. rewrite <- (B Ah). exact L.
Qed.

Lemma t_next_request : trip e ri ri request_next ri.
Proof using.
  assert (F : forall f, (forall s, s_trace (f s) = s_trace s /\ s_resp (f s) = s_resp s /\ s_req (f s) = s_req s /\ s_pidx (f s) = s_pidx s) -> forall s, ri s -> ri (f s)).
  { intros f H s [[V T] D]. destruct (H s) as (H1 & H2 & H3 & H4). unfold ri, rw, recv_ok in *. rewrite H1, H2, H3, H4. tauto. }
  unfold request_next. apply trip_get. intros s0 I0. eapply trip_pre; [|intros s [I _]; exact I].
  apply trip_bind with (Q := ri); [apply trip_when; apply t_frame; [apply F; intro; now repeat split|auto]|]. intro.
  apply trip_bind with (Q := ri); [|intro; apply t_frame; [apply F; intro; now repeat split|auto]].
  intros s I. unfold check_free. cbn [fst snd]. destruct (c_auto_destroy _); [|exact I]. destruct (tx_get _ _) as [t|]; [|exact I]. destruct (is_complete t); [|exact I].
  apply (F (fun s => set_s_txs (tx_del (s_ridx s0) (s_txs s)) s)); [intro; now repeat split|exact I].
Qed.
Lemma t_finalize i : trip e ri ri (finalize i) ri.
Proof using.
  unfold finalize. apply trip_get. intros s0 _. eapply trip_pre; [|intros s [I _]; exact I].
  destruct (tx_get i (s_txs s0)) as [t|]; [destruct (is_complete t)|]; try apply trip_ret. apply t_hook; [discriminate|discriminate].
Qed.
Lemma t_request_complete : trip e ri ri state_request_complete ri.
Proof using.
  unfold state_request_complete. apply trip_bind with (Q := ri); [apply (t_req _ 0); intro; ok_go|]. intro t.
  apply trip_bind with (Q := ri).
  { apply trip_when. apply trip_bind with (Q := ri); [apply (t_req _ 0); intro; ok_go|]. intro. apply trip_bind with (Q := ri); [apply (t_req _ 1); intro; ok_go|]. intro.
    apply trip_bind with (Q := ri); [|intro; apply (t_req _ 0); intro; ok_go]. apply trip_get. intros s0 _. eapply trip_pre; [|intros s [I _]; exact I]. apply t_hook; discriminate. }
  intro. apply trip_bind with (Q := ri); [apply (t_req _ 0); intro; ok_go|]. intro t'. apply trip_bind with (Q := ri); [apply (t_req _ 1); intro; ok_go|]. intro.
  apply trip_get. intros s0 _. eapply trip_pre; [|intros s [I _]; exact I]. apply trip_bind with (Q := ri); [apply t_finalize|]. intro. apply t_next_request.
Qed.
Ltac tq := repeat first [ exact t_request_complete
  | match goal with
    | |- trip _ _ _ (if ?b then _ else _) _ => destruct b
    | |- trip _ _ _ (match ?l with [] => _ | _ => _ end) _ => destruct l
    | |- trip _ _ _ (match ?l with POk _ _ => _ | _ => _ end) _ => destruct l
    end
  | (apply (t_req _ 1); intro; solve [ok_go])
  | (apply trip_bind with (Q := ri); [apply (t_req _ 1); intro; ok_go|intro]) ].
Lemma t_request_step : trip e ri ri handle_request_state ri.
Proof using.
  intros s I. assert (G : ri (snd (handle_request_state e s))); [|destruct (fst (handle_request_state e s)); exact G].
  destruct (pstate_eqb (d_state (s_req s)) StIdle || ending SReq (d_state (s_req s))) eqn:Ei.
  - unfold handle_request_state, bind, get_d. cbn [s_dir].
    assert (K : trip e ri ri request_idle ri /\ trip e ri ri request_finalize ri /\ trip e ri ri request_connect_probe_data ri).
    { split; [|split].
      - unfold request_idle, state_request_start. apply trip_bind with (Q := ri); [apply (t_req _ 0); intro; ok_go|]. intro p. apply trip_bind with (Q := ri); [apply (t_req _ 0); intro; ok_go|]. intro d.
        destruct (_ && _); [apply trip_fail; auto|]. apply trip_bind with (Q := ri); [apply (t_req _ 0); intro; ok_go|]. intro. apply trip_bind with (Q := ri); [apply (t_req _ 0); intro; ok_go|]. intro.
        apply trip_ignore. apply trip_bind with (Q := ri); [apply (t_req _ 1); intro; ok_go|]. intro. apply trip_bind with (Q := ri); [apply (t_req _ 0); intro; ok_go|]. intro.
        apply trip_bind with (Q := ri); [apply (t_req _ 1); intro; ok_go|]. intro. apply trip_get. intros s0 _. eapply trip_pre; [|intros s1 [J _]; exact J]. apply t_hook; discriminate.
      - unfold request_finalize, request_finalize_work, request_finalize_line. tq.
      - unfold request_connect_probe_data. tq. }
    destruct K as (K1 & K2 & K3). destruct (d_state (s_req s)); try discriminate; eapply trip_snd; eassumption.
  - apply orb_false_iff in Ei. destruct Ei as [E1 E2]. eapply rel_ri; [apply ok_handle_request|exact I]; [intro Q; rewrite Q in E1; discriminate|exact E2].
Qed.

(** ** Responses *)
Lemma t_response_complete i : trip e ri (rn i) state_response_complete ri.
Proof using.
  unfold state_response_complete. apply trip_get. intros s0 (_ & _ & _ & I0). eapply trip_pre; [|intros s [I _]; exact I]. rewrite I0.
  apply trip_bind with (Q := rn i); [apply (t_own _ 0); intro; ok_go|]. intro t. apply trip_bind with (Q := rn i).
  { apply trip_when. apply trip_bind with (Q := rn i); [apply (t_own _ 1); intro; ok_go|]. intro. apply trip_bind with (Q := rn i); [apply (t_own _ 0); intro; ok_go|]. intro.
    apply trip_bind with (Q := rn i); [|intro; apply (t_own _ 0); intro; ok_go]. apply t_hook_own; [now left|reflexivity]. }
  intro. apply trip_bind with (Q := rn i).
  { unfold request_parser_check_waiting. apply trip_get. intros s1 _. eapply trip_pre; [|intros s [I _]; exact I]. destruct (_ && _); [apply trip_fail, rn_ri|].
    destruct (s_other_at_end s1); [|apply trip_ret]. apply trip_bind with (Q := rn i); [|intro; apply trip_fail, rn_ri]. apply t_frame; [|apply rn_ri]. intros s I. exact I. }
  intro. apply trip_bind with (Q := rn i).
  { unfold finalize. apply trip_get. intros s1 _. eapply trip_pre; [|intros s [I _]; exact I]. destruct (tx_get i (s_txs s1)) as [u|]; [destruct (is_complete u)|]; try apply trip_ret.
    apply t_hook_own; [right; split; [reflexivity|discriminate]|discriminate]. }
  intro. intros s (V & T & _). unfold response_next, set_state, upd_d, bind, get, check_free, modify. cbn [fst snd].
  set (s' := if c_auto_destroy (e_cfg e) then _ else _).
  assert (Q : s_trace s' = s_trace s /\ s_req s' = s_req s /\ s_resp s' = s_resp s).
  { unfold s'. destruct (c_auto_destroy _); [|auto]. destruct (tx_get _ _) as [u|]; [|auto]. destruct (is_complete u); auto. }
  destruct Q as (Q1 & Q2 & Q3). split; [split|left; reflexivity].
  - destruct V as [V1 V2]. split; cbn; [now rewrite Q2|now rewrite Q3].
  - cbn. now rewrite Q1.
Qed.
Lemma start_ri s i : rw s -> s_pidx s = i -> live i s -> rn i (snd (tx_hook HResponseStart i e s)).
Proof using.
  intros [V T] I L. destruct (tx_hook_snd HResponseStart i s) as [Q|(r & Q & _)].
  - exfalso. unfold tx_hook, bind, get in Q. unfold live in L. destruct (tx_get i (s_txs s)) eqn:E; [|congruence]. unfold call in Q.
    assert (Q' : s_trace s = (mk_ev HResponseStart i PlNone, e_cb e s (mk_ev HResponseStart i PlNone)) :: s_trace s).
    { rewrite <- Q at 1. unfold check. destruct (e_cb e s _); reflexivity. }
    apply (f_equal (@length _)) in Q'. cbn [length] in Q'. lia.
  - rewrite Q. split; [exact V|]. cbn [s_trace set_s_trace]. split; [split; [exact T|discriminate]|]. split; [reflexivity|exact I].
Qed.
Lemma t_response_idle s : ri s -> d_state (s_resp s) = StIdle -> ri (snd (response_idle e s)).
Proof using.
  intros I Id. unfold response_idle. unfold bind at 1, input. destruct (pd_is_empty _); [exact I|]. 
  assert (H : trip e ri (fun s => ri s /\ d_state (s_resp s) = StIdle) (let* t := need_tx SResp in
     when (prog_eqb (t_prog (x_req t)) PNotStarted)
         (log LvError "UNABLE_TO_MATCH_RESPONSE_TO_REQUEST" ;;
          mod_tx SResp (fun t => upd_dir SReq (set_t_prog PComplete) (set_x_dflt true
             (set_x_parsed (Some {| u_scheme := None; u_username := None; u_password := None; u_hostname := None; u_port := None;
                                    u_port_number := None; u_path := Some uri_not_seen; u_query := None; u_fragment := None |})
             (set_x_uri (Some uri_not_seen) t)))) ;;
          request_next) ;;
    upd_d SResp (fun d => set_d_left None (set_d_clen None d)) ;;
    state_response_start) ri); [|apply (trip_snd e ri _ _ _ s H); now split].
  clear s I Id. set (P := fun s => ri s /\ d_state (s_resp s) = StIdle).
  assert (Pri : forall s, P s -> ri s) by (intros s [A _]; exact A).
  assert (Pq : forall A (m : M A), (forall i, ok 0 SResp false i m) -> hush m -> trip e ri P m P).
  { intros A m Hm Hh. apply trip_all; [|exact Pri]. intros s [I D]. pose proof (t_quiet A m Hm Hh s I) as T. pose proof (Hm (s_pidx s) e s eq_refl ltac:(discriminate)) as R.
    pose proof (rl_state _ _ _ _ _ R eq_refl) as Q. cbn [s_dir] in Q. split; [destruct (fst (m e s)); exact T|congruence]. }
  assert (Pf : forall f, (forall s, s_trace (f s) = s_trace s /\ d_state (s_resp (f s)) = d_state (s_resp s) /\ (recv_ok s -> recv_ok (f s))) -> forall s, P s -> P (f s)).
  { intros f H s [[[V T] D] E]. destruct (H s) as (H1 & H2 & H3). split; [|congruence]. split; [split; [auto|now rewrite H1]|left; congruence]. }
  apply trip_bind with (Q := P); [apply Pq; [intro; ok_go|apply hush_need]|]. intro t. apply trip_bind with (Q := P).
  { apply trip_when. apply trip_bind with (Q := P); [apply Pq; [intro; ok_go|apply hush_log]|]. intro. apply trip_bind with (Q := P).
    - unfold mod_tx. apply trip_bind with (Q := P); [apply Pq; [intro; ok_go|apply hush_the]|]. intro u. apply trip_get. intros s0 _. eapply trip_pre; [|intros s [J _]; exact J].
      unfold put_tx. apply t_frame; [|exact Pri]. apply Pf. intro; do 2 (split; [reflexivity|]); exact (fun H => H).
    - intro. unfold request_next. apply trip_get. intros s0 _. eapply trip_pre; [|intros s [J _]; exact J].
      apply trip_bind with (Q := P); [apply trip_when, t_frame; [apply Pf; intro; do 2 (split; [reflexivity|]); exact (fun H => H)|exact Pri]|]. intro.
      apply trip_bind with (Q := P); [|intro; apply t_frame; [apply Pf; intro; do 2 (split; [reflexivity|]); exact (fun H => H)|exact Pri]].
      intros s J. unfold check_free. cbn [fst snd]. destruct (c_auto_destroy _); [|exact J]. destruct (tx_get _ _) as [u|]; [|exact J]. destruct (is_complete u); [|exact J].
      apply (Pf (fun s => set_s_txs (tx_del (s_ridx s0) (s_txs s)) s)); [intro; do 2 (split; [reflexivity|]); exact (fun H => H)|exact J]. }
  intro. apply trip_bind with (Q := P); [apply Pq; [intro; ok_go|apply hush_upd; intros d H; exact H]|]. intro.
  unfold state_response_start.
  (* up to the callback the state counts as idle or as started *)
  apply trip_all; [|auto]. intros s [[[V T] D] E]. unfold bind at 1. pose proof (hush_need SResp e s V) as (V1 & l & E1 & F1).
  destruct (need_tx_eval SResp e s) as [(u & s1 & En & Hs & _ & Tg)|En]; rewrite En in *; cbn [fst snd] in *; [|split; [split; assumption|exact D]].
  assert (W1 : rw s1) by (pose proof (hush_rw _ (need_tx SResp) s (hush_need SResp) (conj V T)) as [W _]; rewrite En in W; exact W).
  set (i := s_pidx s1).
  assert (L1 : live i s1) by (unfold live; cbn [s_idx] in Tg; unfold i; congruence).
  set (pre := if x_is09 u then _ else _).
  assert (Hp : hush pre).
  { unfold pre. destruct (x_is09 u).
    - apply hush_bind; [apply hush_mod_tx|]. intro. apply hush_bind; [apply hush_upd; intros d H; exact H|]. intro. apply hush_upd. intros d H. exact H.
    - apply hush_bind; [apply hush_mod_tx|]. intro. apply hush_upd. intros d H. exact H. }
  assert (Rp : rel 1 SResp e s1 (snd (pre e s1))).
  { refine ((_ : ok 1 SResp false (s_pidx s1) pre) e s1 eq_refl ltac:(discriminate)). unfold pre. destruct (x_is09 u); [|ok_go].
    apply ok_bind; [|intro; ok_go]. unfold mod_txd. ok_body tt. }
  assert (Eok : exists s2, pre e s1 = (ROk tt, s2)).
  { unfold pre. destruct (x_is09 u); unfold set_progress, mod_txd, mod_tx, bind, the_tx, cur_tx, bind, get, put_tx, modify, set_state, upd_d; cbn [s_idx] in *; unfold i in L1; rewrite Tg; eexists; reflexivity. }
  destruct Eok as (s2 & Ep). unfold bind at 1. pose proof (hush_rw _ pre s1 Hp W1) as [W2 _]. rewrite Ep in *. cbn [snd] in W2, Rp.
  assert (I2 : s_pidx s2 = i) by (apply (rl_pidx _ _ _ _ _ Rp)). assert (L2 : live i s2) by (eapply rel_live; eauto).
  pose proof (start_ri s2 i W2 I2 L2) as N2. unfold bind at 1. unfold bind at 1, get. cbv beta iota. rewrite I2.
  destruct (tx_hook HResponseStart i e s2) as [[v|x| |] s3]; cbn [fst snd] in *; try exact (rn_ri _ _ N2).
  assert (R : forall A (m : M A), (forall i, ok 0 SResp false i m) -> ri (snd (m e s3))).
  { intros A m Hm. pose proof (t_own A 0 i m Hm s3 N2) as Q. destruct (fst (m e s3)); [apply (rn_ri _ _ Q)|exact Q..]. }
  apply R. intro. ok_go.
Qed.
Ltac tp i := repeat first [ exact (t_response_complete i)
  | match goal with
    | |- trip _ _ _ (if ?b then _ else _) _ => destruct b
    | |- trip _ _ _ (match ?l with [] => _ | _ => _ end) _ => destruct l
    | |- trip _ _ _ (match ?l with POk _ _ => _ | _ => _ end) _ => destruct l
    end
  | (eapply trip_post; [apply (t_own _ 1 i); intro; solve [ok_go]|apply rn_ri])
  | (apply trip_bind with (Q := rn i); [apply (t_own _ 1); intro; ok_go|intro]) ].
Lemma t_response_finalize i : trip e ri (rn i) response_finalize ri.
Proof using. unfold response_finalize, response_finalize_work. tp i. Qed.
Lemma t_response_step : trip e ri ri handle_response_state ri.
Proof using.
  apply trip_all; [|auto]. intros s I. destruct (pstate_eqb (d_state (s_resp s)) StIdle) eqn:Ei.
  - assert (E : d_state (s_resp s) = StIdle) by (destruct (d_state (s_resp s)); (reflexivity || discriminate)).
    unfold handle_response_state, bind, get_d. cbn [s_dir]. rewrite E. now apply t_response_idle.
  - assert (Ni : d_state (s_resp s) <> StIdle) by (intro Q; rewrite Q in Ei; discriminate).
    assert (Rn : rn (s_pidx s) s) by (destruct I as [[V T] [D|D]]; [congruence|]; split; [exact V|]; split; [exact T|]; split; [exact D|reflexivity]).
    destruct (ending SResp (d_state (s_resp s))) eqn:En.
    + unfold handle_response_state, bind, get_d. cbn [s_dir]. destruct (d_state (s_resp s)); try discriminate. exact (trip_snd e ri _ _ _ s (t_response_finalize _) Rn).
    + apply (rn_ri (s_pidx s)). eapply rel_rn; [apply ok_handle_response; assumption|exact Rn].
Qed.
(** Steps of the shared machinery, for either side. *)
Lemma t_either A (sd : side) (m : M A) : (forall i, ok 0 sd false i m) -> hush m -> trip e ri ri m ri.
Proof using. intros H Hm. destruct sd; [exact (t_req _ 0 m H)|exact (t_quiet _ m H Hm)]. Qed.
Lemma t_step sd : trip e ri ri (step sd) ri.
Proof using.
  unfold step. apply trip_bind with (Q := ri); [apply trip_all; auto|]. intro p. apply trip_bind with (Q := ri); [apply trip_all; auto|]. intro d.
  destruct (_ && _); [apply (t_either _ sd); [intro; ok_go|apply hush_bind; [apply hush_log|intro; apply hush_ret]]|].
  apply trip_bind with (Q := ri); [apply trip_try; destruct sd; [apply t_request_step|apply t_response_step]|].
  assert (Af : forall rc, trip e ri ri (after_step sd rc) ri).
  { intro rc. apply (t_either _ sd); [|apply hush_after]. intro i. unfold after_step. destruct rc as [|[]]; ok_go. }
  intros [u|x]; [|apply Af]. apply trip_bind with (Q := ri); [apply trip_all; auto|]. intro d'. destruct (sstate_eqb _ _); [apply trip_ret|].
  apply trip_bind with (Q := ri); [apply trip_try; apply (t_either _ sd); [intro; apply ok_handle_state_change|apply hush_change]|]. exact Af.
Qed.
Lemma t_loop sd n : trip e ri ri (data_loop sd n) ri.
Proof using.
  induction n as [|n IH]; cbn [data_loop]; [apply trip_all; auto|]. apply trip_bind with (Q := ri); [apply t_step|]. intros [x|]; [apply trip_ret|exact IH].
Qed.
Lemma hush_count sd n : hush (modify (count_data sd n)).
Proof using. apply hush_modify. intro s. destruct sd; (split; [reflexivity|exact (fun H => H)]). Qed.
Lemma t_same A (m : M A) : (forall s, s_trace (snd (m e s)) = s_trace s /\ s_pidx (snd (m e s)) = s_pidx s /\ d_state (s_resp (snd (m e s))) = d_state (s_resp s) /\
  (recv_ok s -> recv_ok (snd (m e s)))) -> trip e ri ri m ri.
Proof using.
  intro H. apply trip_all; [|auto]. intros s [[V T] D]. destruct (H s) as (H1 & H2 & H3 & H4). unfold ri, rw. rewrite H1, H2, H3. repeat split; try tauto; now apply H4.
Qed.
Definition fr (_ : env) (s s' : st) : Prop := s_trace s' = s_trace s /\ s_pidx s' = s_pidx s /\ s_ridx s' = s_ridx s /\
  d_state (s_resp s') = d_state (s_resp s) /\ d_state (s_req s') = d_state (s_req s) /\ (recv_ok s -> recv_ok s').
Lemma fr_refl e0 s : fr e0 s s. Proof using. do 5 (split; [reflexivity|]). exact (fun H => H). Qed.
Lemma fr_trans e0 a b c : fr e0 a b -> fr e0 b c -> fr e0 a c.
Proof using. intros (A1 & A2 & A3 & A4 & A5 & A6) (B1 & B2 & B3 & B4 & B5 & B6). do 5 (split; [congruence|]). auto. Qed.
Lemma fr_cur sd : stable fr (cur_tx sd).
Proof using. intros e0 s. unfold cur_tx. destruct (tx_get _ _); [apply fr_refl|]. destruct (_ <=? _); [apply fr_refl|]. do 5 (split; [reflexivity|]). exact (fun H => H). Qed.
Lemma fr_mod sd f : stable fr (mod_tx sd f).
Proof using.
  unfold mod_tx, the_tx. apply (stable_bind _ fr_trans).
  - apply (stable_bind _ fr_trans); [apply fr_cur|]. intros [t|]; [apply (stable_ret _ fr_refl)|apply (stable_panic _ fr_refl)].
  - intro t. apply (stable_bind _ fr_trans); [apply (stable_get _ fr_refl)|]. intro s0. unfold put_tx. apply stable_modify. intros e0 s. do 5 (split; [reflexivity|]). exact (fun H => H).
Qed.
Lemma mark_gap_same sd s : fr e s (snd (mark_gap sd e s)).
Proof using.
  assert (H : stable fr (mark_gap sd)); [|apply H]. unfold mark_gap. apply (stable_bind _ fr_trans); [apply (stable_get _ fr_refl)|]. intro s0.
  apply (stable_bind _ fr_trans); [apply fr_cur|]. intros [t|]; [|apply (stable_ret _ fr_refl)]. apply (stable_bind _ fr_trans); [apply fr_mod|]. intro.
  destruct (_ && _); [|apply (stable_ret _ fr_refl)]. apply (stable_bind _ fr_trans); [apply fr_mod|]. intro. apply (stable_bind _ fr_trans); [|intro; apply (stable_ret _ fr_refl)].
  apply stable_modify. intros e0 s1. destruct sd; do 5 (split; [reflexivity|]); exact (fun H => H).
Qed.
Lemma t_call sd c : trip e ri ri (data_call sd c) ri.
Proof using.
  assert (Ho : forall A (m : M A), (forall i, ok 0 sd false i m) -> hush m -> trip e ri ri m ri) by (intros; now apply (t_either _ sd)).
  unfold data_call. apply trip_bind with (Q := ri); [apply t_same; intro; do 3 (split; [reflexivity|]); exact (fun H => H)|]. intro.
  apply trip_bind with (Q := ri); [apply Ho; [intro; ok_go|apply hush_upd; intros d H; exact H]|]. intro. apply trip_bind with (Q := ri); [apply trip_all; auto|]. intro d.
  assert (K : trip e ri ri (if pd_is_empty c && negb (sstate_eqb (d_status d) SsClosed) then log LvError "ZERO_LENGTH_DATA_CHUNKS" ;; ret SsClosed
      else
        modify (count_data sd (pd_len c)) ;;
        if sstate_eqb (d_status d) SsTunnel then ret SsTunnel
        else
          by_side sd (let* r := get_d SResp in when (sstate_eqb (d_status r) SsDataOther) (set_status SResp SsData)) (ret tt) ;;
          let* early := (if pd_is_gap c then mark_gap sd else ret None) in
          match early with
          | Some x => ret x
          | None => let* s := get in data_loop sd (loop_fuel sd s)
          end) ri).
  { destruct (_ && _); [apply Ho; [intro; ok_go|apply hush_bind; [apply hush_log|intro; apply hush_ret]]|].
    apply trip_bind with (Q := ri); [apply t_same; intro; destruct sd; do 3 (split; [reflexivity|]); exact (fun H => H)|]. intro.
    destruct (sstate_eqb _ _); [apply trip_ret|]. apply trip_bind with (Q := ri).
    { destruct sd; cbn [by_side]; [|apply trip_ret]. apply trip_bind with (Q := ri); [apply trip_all; auto|]. intro r. apply trip_when. apply t_same. intro; do 3 (split; [reflexivity|]); exact (fun H => H). }
    intro. apply trip_bind with (Q := ri).
    { destruct (pd_is_gap c); [|apply trip_ret]. apply t_same. intro s. destruct (mark_gap_same sd s) as (M1 & M2 & _ & M3 & _ & M4). auto. }
    intros [x|]; [apply trip_ret|]. apply trip_get. intros s0 _. eapply trip_pre; [|intros s [J _]; exact J]. apply t_loop. }
  destruct (d_status d); first [exact K|apply Ho; [intro; ok_go|apply hush_bind; [apply hush_log|intro; apply hush_ret]]].
Qed.
Lemma t_close sd : trip e ri ri (close_status sd) ri.
Proof using.
  unfold close_status. apply trip_bind with (Q := ri); [apply trip_all; auto|]. intro d. apply trip_when. apply t_same. intro; destruct sd; do 3 (split; [reflexivity|]); exact (fun H => H).
Qed.
Lemma t_for_each A (f : A -> M unit) l : (forall a, trip e ri ri (f a) ri) -> trip e ri ri (for_each f l) ri.
Proof using. intro H. induction l as [|a l IH]; cbn [for_each]; [apply trip_ret|]. apply trip_bind with (Q := ri); [apply H|intro; exact IH]. Qed.
Lemma t_op o : trip e ri ri (run_op o) ri.
Proof using.
  assert (D : forall f, (forall s, s_trace (f s) = s_trace s /\ s_pidx (f s) = s_pidx s /\ d_state (s_resp (f s)) = d_state (s_resp s) /\ (recv_ok s -> recv_ok (f s))) -> trip e ri ri (modify f) ri) by (intros f H; now apply t_same).
  destruct o; cbn [run_op].
  - apply trip_get. intros s0 _. eapply trip_pre; [|intros s [J _]; exact J]. apply trip_bind with (Q := ri); [|intro; apply trip_ret].
    destruct (_ && _); [|apply (t_either _ SReq); [intro; ok_go|apply hush_log]].
    apply trip_bind with (Q := ri); [|intro]; apply t_same; intro; do 3 (split; [reflexivity|]); exact (fun H => H).
  - apply trip_bind with (Q := ri); [apply t_call|intro; apply trip_ret].
  - apply trip_bind with (Q := ri); [apply t_call|intro; apply trip_ret].
  - apply trip_bind with (Q := ri); [apply t_close|intro]. apply trip_bind with (Q := ri); [apply t_call|intro; apply trip_ret].
  - apply trip_bind with (Q := ri); [apply t_close|intro]. apply trip_bind with (Q := ri); [apply t_close|intro].
    apply trip_bind with (Q := ri); [apply t_call|intro]. apply trip_bind with (Q := ri); [apply t_call|intro].
    apply trip_bind with (Q := ri); [apply trip_all; auto|]. intro e'. apply trip_bind with (Q := ri); [|intro; apply trip_ret]. apply trip_when.
    unfold flush_incomplete_transactions. apply trip_bind with (Q := ri); [apply trip_all; auto|]. intro e2. apply trip_get. intros s0 _. eapply trip_pre; [|intros s [J _]; exact J].
    apply t_for_each. intro i. apply trip_bind with (Q := ri); [apply trip_ignore, t_hook; discriminate|]. intro. apply trip_when, D. intro; do 3 (split; [reflexivity|]); exact (fun H => H).
  - apply trip_bind with (Q := ri); [|intro; apply trip_ret]. apply D. intro; do 3 (split; [reflexivity|]); exact (fun H => H).
Qed.
Lemma t_ops l : trip e ri ri (run_ops l) ri.
Proof using.
  induction l as [|o l IH]; cbn [run_ops]; [apply trip_ret|]. apply trip_bind with (Q := ri); [apply t_op|intro]. apply trip_bind with (Q := ri); [exact IH|intro; apply trip_ret].
Qed.
Lemma response_announced l : announced SResp (events (snd (history e l))).
Proof using.
  apply tok_announced. unfold history. assert (I : ri st_new) by (split; [split; [split; reflexivity|exact I]|left; reflexivity]).
  destruct (trip_snd e ri _ _ _ st_new (t_ops l) I) as [[_ T] _]. exact T.
Qed.
End Resp.

(** * The request side *)
Section Req.
Variable e : env.
Hypothesis Keep : c_auto_destroy (e_cfg e) = false.
Definition bad (s : st) : Prop := In unmatched (s_logs s) \/ exists i t, tx_get i (s_txs s) = Some t /\ expecting t.
Definition stuck (i : N) (s : st) : Prop := c_max_tx (e_cfg e) <= N.of_nat (length (s_txs s)) /\ ~ live i s.
Definition idleish (s : st) : Prop := d_state (s_req s) = StIdle \/ d_state (s_req s) = StIgnore09.
Definition qn (i : N) (s : st) : Prop := recv_ok s /\ (bad s \/ (tok SReq (s_trace s) /\ s_ridx s = i /\ (last SReq (s_trace s) = Some i \/ stuck i s))).
Definition q0 (s : st) : Prop := recv_ok s /\ (bad s \/ (tok SReq (s_trace s) /\ idleish s)).
Definition qi (s : st) : Prop := recv_ok s /\ (bad s \/ (tok SReq (s_trace s) /\ (idleish s \/ last SReq (s_trace s) = Some (s_ridx s) \/ stuck (s_ridx s) s))).
Lemma qn_qi i s : qn i s -> qi s.
Proof using Keep. intros [V [B|(T & <- & D)]]; (split; [exact V|]); [now left|right]. tauto. Qed.
Lemma q0_qi s : q0 s -> qi s.
Proof using Keep. intros [V [B|[T D]]]; (split; [exact V|]); [now left|right]. tauto. Qed.
Lemma rel_bad lv sd s s' : rel lv sd e s s' -> bad s -> bad s'.
Proof using Keep.
  intros R [B|(i & t & E & X)].
  - left. destruct (rl_logs _ _ _ _ _ R) as [l ->]. apply in_or_app. now right.
  - right. destruct (rl_txs _ _ _ _ _ R i t E) as (t' & E' & K & O). exists i, t'. split; [exact E'|]. destruct (N.eq_dec i (s_idx sd s)) as [Q|Q]; [exact (kp_expects _ _ _ _ (K Q) X)|now rewrite (O Q)].
Qed.
Lemma rel_stuck lv sd s s' i : rel lv sd e s s' -> stuck i s -> stuck i s'.
Proof using Keep.
  intros R [F L]. split; [pose proof (rl_size _ _ _ _ _ R); lia|]. intro H. apply L. exact (rl_full _ _ _ _ _ R F i H).
Qed.
Lemma rel_qn lv i s s' : rel lv SReq e s s' -> qn i s -> qn i s'.
Proof using Keep.
  intros R [V H]. destruct (rl_trace _ _ _ _ _ R V) as (V' & l & E & F). split; [exact V'|]. destruct H as [B|(T & I & D)]; [left; eapply rel_bad; eauto|right].
  rewrite E, (rl_ridx _ _ _ _ _ R). assert (Sp : Forall (fun x => special (ev_hook (fst x)) = false) l) by (eapply Forall_impl; [|exact F]; intros a [S O]; exact S).
  rewrite (last_app _ _ _ Sp). split; [|split; [exact I|]].
  - apply (tok_app _ _ _ i T). eapply Forall_impl; [|exact F]. intros a [S O]. split; [exact S|]. intro Oa. destruct (O _ Oa) as (_ & Q2 & Q3). cbn [s_idx] in Q2, Q3. rewrite I in Q2, Q3.
    split; [exact Q2|]. destruct D as [D|D]; [exact D|]. elim (proj2 (rel_stuck _ _ _ _ _ R D) Q3).
  - destruct D as [D|D]; [now left|right; eapply rel_stuck; eauto].
Qed.
Lemma rel_qi lv s s' : rel lv SResp e s s' -> qi s -> qi s'.
Proof using Keep.
  intros R [V H]. destruct (rl_trace _ _ _ _ _ R V) as (V' & l & E & F). split; [exact V'|]. destruct H as [B|(T & D)]; [left; eapply rel_bad; eauto|].
  destruct (rl_ostate _ _ _ _ _ R) as [O|(_ & _ & i & t & Ei & X)]; [|left; right; exists i, t; now split]. right.
  rewrite E, (rl_ridx _ _ _ _ _ R). assert (Sp : Forall (fun x => special (ev_hook (fst x)) = false) l) by (eapply Forall_impl; [|exact F]; intros a [S O']; exact S).
  rewrite (last_app _ _ _ Sp). split.
  - apply (tok_app _ _ _ 0 T). eapply Forall_impl; [|exact F]. intros a [S Oa]. split; [exact S|]. intro Q. destruct (Oa _ Q) as (Q1 & _). discriminate.
  - cbn [other s_dir] in O. unfold idleish in *. rewrite O. destruct D as [D|[D|D]]; [now left|right; now left|right; right]. eapply rel_stuck; eauto.
Qed.
Lemma u_own A lv i (m : M A) : (forall i, ok lv SReq false i m) -> trip e qi (qn i) m (qn i).
Proof using Keep. intro H. apply trip_all; [|apply qn_qi]. intros s I. exact (rel_qn _ _ _ _ (H (s_ridx s) e s eq_refl ltac:(discriminate)) I). Qed.
Lemma u_resp A lv (m : M A) : (forall i, ok lv SResp false i m) -> trip e qi qi m qi.
Proof using Keep. intro H. apply trip_all; [|auto]. intros s I. exact (rel_qi _ _ _ (H (s_pidx s) e s eq_refl ltac:(discriminate)) I). Qed.
Lemma hush_tok A (m : M A) s : hush m -> recv_ok s -> recv_ok (snd (m e s)) /\ (tok SReq (s_trace s) -> tok SReq (s_trace (snd (m e s)))) /\
  last SReq (s_trace (snd (m e s))) = last SReq (s_trace s).
Proof using Keep.
  intros H V. destruct (H e s V) as (V' & l & E & F). rewrite E. split; [exact V'|]. split.
  - intro T. apply (tok_app _ _ _ 0 T). eapply Forall_impl; [|exact F]. intros a [S O]. split; [exact S|]. rewrite O. discriminate.
  - apply last_app. eapply Forall_impl; [|exact F]. intros a [S O]. exact S.
Qed.
Lemma u_quiet A (m : M A) : (forall i, ok 0 SReq false i m) -> hush m -> trip e qi qi m qi.
Proof using Keep.
  intros H Hm. apply trip_all; [|auto]. intros s [V D]. destruct (hush_tok _ m s Hm V) as (V' & T' & L'). pose proof (H (s_ridx s) e s eq_refl ltac:(discriminate)) as R.
  split; [exact V'|]. destruct D as [B|[T D]]; [left; eapply rel_bad; eauto|right]. split; [auto|]. unfold idleish in *. rewrite L', (rl_ridx _ _ _ _ _ R).
  pose proof (rl_state _ _ _ _ _ R eq_refl) as Q. cbn [s_dir] in Q. rewrite Q. destruct D as [D|[D|D]]; [now left|right; now left|right; right]. eapply rel_stuck; eauto.
Qed.
Definition fq (s s' : st) : Prop := s_trace s' = s_trace s /\ s_logs s' = s_logs s /\ s_txs s' = s_txs s /\ d_state (s_req s') = d_state (s_req s) /\ (recv_ok s -> recv_ok s').
Lemma fq_bad s s' : fq s s' -> bad s -> bad s'.
Proof using Keep. intros (H1 & H2 & H3 & H4 & H5). unfold bad. now rewrite H2, H3. Qed.
Lemma fq_q0 s s' : fq s s' -> q0 s -> q0 s'.
Proof using Keep.
  intros H [V D]. pose proof (fq_bad _ _ H) as Hb. destruct H as (H1 & H2 & H3 & H4 & H5). split; [auto|]. destruct D as [B|[T D]]; [left; auto|right]. unfold idleish. now rewrite H1, H4.
Qed.
Lemma fq_qi s s' : fq s s' -> s_ridx s' = s_ridx s -> qi s -> qi s'.
Proof using Keep.
  intros H I [V D]. pose proof (fq_bad _ _ H) as Hb. destruct H as (H1 & H2 & H3 & H4 & H5). split; [auto|]. destruct D as [B|[T D]]; [left; auto|right]. unfold idleish, stuck, live in *. now rewrite H1, H3, H4, I.
Qed.
Lemma fq_qn i s s' : fq s s' -> s_ridx s' = s_ridx s -> qn i s -> qn i s'.
Proof using Keep.
  intros H I [V D]. pose proof (fq_bad _ _ H) as Hb. destruct H as (H1 & H2 & H3 & H4 & H5). split; [auto|]. destruct D as [B|[T D]]; [left; auto|right]. unfold stuck, live in *. now rewrite H1, H3, I.
Qed.
Lemma hook_q (P : st -> Prop) h i : about h <> Some SReq -> h <> HRequestStart -> (P = q0 \/ P = qi) -> trip e qi P (tx_hook h i) P.
Proof using Keep.
  intros A B Hp. apply trip_all; [|destruct Hp as [->| ->]; [exact q0_qi|auto]]. intros s I. destruct (tx_hook_snd e h i s) as [->|(r & -> & _)]; [exact I|].
  assert (L : last SReq ((mk_ev h i PlNone, r) :: s_trace s) = last SReq (s_trace s)) by (cbn [last fst ev_hook]; destruct h; (reflexivity || congruence)).
  assert (T : tok SReq (s_trace s) -> tok SReq ((mk_ev h i PlNone, r) :: s_trace s)) by (intro T; split; [exact T|intro Q; elim (A Q)]).
  destruct Hp as [->| ->]; destruct I as [V [D|[D1 D2]]]; (split; [exact V|]); first [left; exact D|right]; cbn [s_trace set_s_trace]; (split; [auto|]).
  - exact D2.
  - rewrite L. exact D2.
Qed.
Lemma u_complete_hook i j : i = j -> trip e qi (qn i) (tx_hook HRequestComplete j) (qn i).
Proof using Keep.
  intros <-. apply trip_all; [|apply qn_qi]. intros s I. destruct (tx_hook_snd e HRequestComplete i s) as [->|(r & -> & Lv)]; [exact I|].
  destruct I as [V [B|(T & I & D)]]; (split; [exact V|]); [now left|right]. cbn [s_trace set_s_trace]. split; [split; [exact T|]|split; [exact I|exact D]].
  intros _. cbn [fst ev_tx]. destruct D as [D|[_ D]]; [exact D|]. elim (D Lv).
Qed.
Lemma u_next : trip e qi q0 request_next q0.
Proof using Keep.
  unfold request_next. apply trip_get. intros s0 _. eapply trip_pre; [|intros s [I _]; exact I].
  assert (M : forall f, (forall s, fq s (f s)) -> trip e qi q0 (modify f) q0) by (intros f H; apply trip_all; [|exact q0_qi]; intros s I; exact (fq_q0 _ _ (H s) I)).
  apply trip_bind with (Q := q0); [apply trip_when, M; intro; do 4 (split; [reflexivity|]); exact (fun H => H)|]. intro.
  apply trip_bind with (Q := q0); [|intro; apply M; intro; do 4 (split; [reflexivity|]); exact (fun H => H)].
  intros s I. unfold check_free. cbn [fst snd]. rewrite Keep. exact I.
Qed.
Lemma u_request_complete i : trip e qi (qn i) state_request_complete qi.
Proof using Keep.
  unfold state_request_complete. apply trip_bind with (Q := qn i); [apply (u_own _ 0); intro; ok_go|]. intro t.
  apply trip_bind with (Q := qn i).
  { apply trip_when. apply trip_bind with (Q := qn i); [apply (u_own _ 0); intro; ok_go|]. intro. apply trip_bind with (Q := qn i); [apply (u_own _ 1); intro; ok_go|]. intro.
    apply trip_bind with (Q := qn i); [|intro; apply (u_own _ 0); intro; ok_go].
    intros s I. unfold bind, get. destruct I as [V [B|(T & I & D)]].
    - destruct (tx_hook_snd e HRequestComplete (s_ridx s) s) as [Q|(r & Q & _)].
      + destruct (tx_hook HRequestComplete (s_ridx s) e s) as [[u|x| |] s1]; cbn [fst snd] in *; subst s1; first [split; [exact V|now left]].
      + destruct (tx_hook HRequestComplete (s_ridx s) e s) as [[u|x| |] s1]; cbn [fst snd] in *; subst s1; (split; [exact V|left; exact B]).
    - apply (u_complete_hook i (s_ridx s)); [congruence|]. split; [exact V|]. right. tauto. }
  intro. apply trip_bind with (Q := qn i); [apply (u_own _ 0); intro; ok_go|]. intro t'. apply trip_bind with (Q := q0).
  { intros s [V D]. cbn. split; [exact V|]. destruct D as [B|(T & _)]; [left; exact B|right]. split; [exact T|]. unfold idleish. cbn. destruct (x_is09 t'); auto. }
  intro. apply trip_get. intros s0 _. eapply trip_pre; [|intros s [I _]; exact I]. apply trip_bind with (Q := q0).
  { unfold finalize. apply trip_get. intros s1 _. eapply trip_pre; [|intros s [I _]; exact I]. destruct (tx_get _ (s_txs s1)) as [u|]; [destruct (is_complete u)|]; try apply trip_ret.
    apply hook_q; [discriminate|discriminate|now left]. }
  intro. eapply trip_post; [apply u_next|exact q0_qi].
Qed.
Ltac up i := repeat first [ exact (u_request_complete i)
  | match goal with
    | |- trip _ _ _ (if ?b then _ else _) _ => destruct b
    | |- trip _ _ _ (match ?l with [] => _ | _ => _ end) _ => destruct l
    | |- trip _ _ _ (match ?l with POk _ _ => _ | _ => _ end) _ => destruct l
    end
  | (eapply trip_post; [apply (u_own _ 1 i); intro; solve [ok_go]|apply qn_qi])
  | (apply trip_bind with (Q := qn i); [apply (u_own _ 1); intro; ok_go|intro]) ].
Lemma u_request_finalize i : trip e qi (qn i) request_finalize qi.
Proof using Keep. unfold request_finalize, request_finalize_work, request_finalize_line. up i. Qed.
Lemma u_connect_probe i : trip e qi (qn i) request_connect_probe_data qi.
Proof using Keep. unfold request_connect_probe_data. up i. Qed.
Lemma u_request_idle s : qi s -> d_state (s_req s) = StIdle -> qi (snd (request_idle e s)).
Proof using Keep.
  intros I Id. unfold request_idle. unfold bind at 1, input. unfold bind at 1, get_d. destruct (_ && _); [exact I|].
  set (p1 := upd_d SReq (fun d => set_d_left None (set_d_clen None d)) ;; modify (fun s => set_s_chunk_idx (s_chunk_count s) s)).
  assert (E : snd ((upd_d SReq (fun d0 => set_d_left None (set_d_clen None d0));; modify (fun s0 => set_s_chunk_idx (s_chunk_count s0) s0);; ignore state_request_start) e s) =
              snd ((p1 ;; ignore state_request_start) e s)) by reflexivity.
  rewrite E. clear E. set (s1 := snd (p1 e s)).
  assert (F : recv_ok s1 /\ (bad s1 \/ tok SReq (s_trace s1))) by (destruct I as [V [B|[T _]]]; (split; [exact V|]); [left; exact B|right; exact T]).
  change (qi (snd (ignore state_request_start e s1))). clearbody s1. clear s I Id p1. destruct F as [V D].
  unfold ignore, state_request_start. unfold set_state, upd_d, modify. unfold bind at 1. cbn beta iota. set (s2 := set_s_dir _ _ _).
  assert (F2 : recv_ok s2 /\ (bad s2 \/ tok SReq (s_trace s2))) by (split; [exact V|exact D]). clearbody s2. clear V D s1. destruct F2 as [V D].
  unfold bind at 1. pose proof (ok_need0 0 SReq false (s_ridx s2) e s2 eq_refl ltac:(discriminate)) as R.
  pose proof (hush_tok _ (need_tx SReq) s2 (hush_need SReq) V) as (V3 & T3 & _).
  destruct (need_tx_eval SReq e s2) as [(t & s3 & En & Hs & _ & Tg)|En].
  2:{ rewrite En. cbn [snd]. split; [exact V|]. destruct D as [B|T]; [now left|right]. split; [exact T|]. right. right.
      unfold need_tx, bind, cur_tx in En. cbn [s_idx] in En. unfold stuck, live. destruct (tx_get (s_ridx s2) (s_txs s2)) eqn:Eg; [discriminate|].
      destruct (_ <=? _) eqn:Ef; [|discriminate]. apply N.leb_le in Ef. split; [exact Ef|congruence]. }
  rewrite En in *. cbn [fst snd] in *. assert (D3 : bad s3 \/ tok SReq (s_trace s3)) by (destruct D as [B|T]; [left; eapply rel_bad; eauto|right; auto]).
  clear R T3 V D En s2 Hs. cbn [s_idx] in Tg.
  unfold bind at 1. unfold set_progress, mod_txd, mod_tx, the_tx, cur_tx. unfold bind at 1. unfold bind at 1. cbn [s_idx]. rewrite Tg. unfold bind at 1, ret, get, put_tx, modify. cbn beta iota. cbn [s_idx].
  match goal with |- context [tx_set _ ?x _] => set (t4 := x) end. set (s4 := set_s_txs (tx_set (s_ridx s3) t4 (s_txs s3)) s3).
  assert (R4 : rel 1 SReq e s3 s4).
  { apply (rel_put 1 SReq e s3 t t4 Tg). constructor; cbn; auto; try (intro; lia). discriminate. }
  assert (D4 : bad s4 \/ tok SReq (s_trace s4)) by (destruct D3 as [B|T]; [left; eapply rel_bad; eauto|right; exact T]).
  assert (V4 : recv_ok s4) by exact V3. assert (L4 : live (s_ridx s4) s4) by (unfold live; cbn [s_txs s4]; unfold s4; cbn [s_txs set_s_txs s_ridx]; rewrite tx_get_set, N.eqb_refl, Tg; discriminate).
  clearbody s4. clear R4 D3 V3 Tg t4 t s3. unfold bind at 1, get.
  assert (G : qi (snd (tx_hook HRequestStart (s_ridx s4) e s4))).
  { destruct (tx_hook_snd e HRequestStart (s_ridx s4) s4) as [Q|(r & -> & _)].
    - exfalso. unfold tx_hook, bind, get in Q. unfold live in L4. destruct (tx_get (s_ridx s4) (s_txs s4)) eqn:E; [|congruence]. unfold call in Q.
      assert (Q' : s_trace s4 = (mk_ev HRequestStart (s_ridx s4) PlNone, e_cb e s4 (mk_ev HRequestStart (s_ridx s4) PlNone)) :: s_trace s4).
      { rewrite <- Q at 1. unfold check. destruct (e_cb e s4 _); reflexivity. }
      apply (f_equal (@length _)) in Q'. cbn [length] in Q'. lia.
    - split; [exact V4|]. destruct D4 as [B|T]; [left; exact B|right]. cbn [s_trace set_s_trace s_ridx]. split; [split; [exact T|discriminate]|]. right. left. reflexivity. }
  destruct (tx_hook HRequestStart (s_ridx s4) e s4) as [[u|x| |] s5]; exact G.
Qed.
Lemma u_request_step : trip e qi qi handle_request_state qi.
Proof using Keep.
  apply trip_all; [|auto]. intros s I. destruct (pstate_eqb (d_state (s_req s)) StIdle) eqn:Ei.
  - assert (E : d_state (s_req s) = StIdle) by (destruct (d_state (s_req s)); (reflexivity || discriminate)).
    unfold handle_request_state, bind, get_d. cbn [s_dir]. rewrite E. now apply u_request_idle.
  - assert (Ni : d_state (s_req s) <> StIdle) by (intro Q; rewrite Q in Ei; discriminate).
    destruct (pstate_eqb (d_state (s_req s)) StIgnore09) eqn:E9.
    { assert (E : d_state (s_req s) = StIgnore09) by (destruct (d_state (s_req s)); (reflexivity || discriminate)).
      unfold handle_request_state, bind, get_d. cbn [s_dir]. rewrite E. apply (trip_snd e qi _ qi _ s); [|exact I]. apply u_quiet; [intro; unfold request_ignore_data_after_http_0_9; ok_go|].
      unfold request_ignore_data_after_http_0_9. apply hush_bind; [apply hush_input|]. intro p. apply hush_bind; [destruct (negb (pd_is_empty p)); [apply hush_modify; intro; split; auto|apply hush_ret]|].
      intro. apply hush_bind; [apply hush_consume|]. intro. apply hush_fail. }
    assert (N9 : d_state (s_req s) <> StIgnore09) by (intro Q; rewrite Q in E9; discriminate).
    assert (Qn : qn (s_ridx s) s).
    { destruct I as [V [B|[T D]]]; (split; [exact V|]); [now left|right]. split; [exact T|]. split; [reflexivity|]. destruct D as [[D|D]|D]; [congruence|congruence|exact D]. }
    destruct (ending SReq (d_state (s_req s))) eqn:En.
    + unfold handle_request_state, bind, get_d. cbn [s_dir].
      destruct (d_state (s_req s)); try discriminate; (first [exact (trip_snd e qi _ _ _ s (u_connect_probe _) Qn)|exact (trip_snd e qi _ _ _ s (u_request_finalize _) Qn)]).
    + apply (qn_qi (s_ridx s)). eapply rel_qn; [apply ok_handle_request; assumption|exact Qn].
Qed.

(** ** What responses do to requests *)
Hypothesis Logs : LvError <= c_log_level (e_cfg e).
Lemma u_resp_hook h i : about h <> Some SReq -> h <> HRequestStart -> trip e qi qi (tx_hook h i) qi.
Proof using Keep. intros. apply hook_q; auto. Qed.
Lemma u_frame f : (forall s, fq s (f s) /\ s_ridx (f s) = s_ridx s) -> trip e qi qi (modify f) qi.
Proof using Keep. intros H. apply trip_all; [|auto]. intros s I. destruct (H s) as [A B]. exact (fq_qi _ _ A B I). Qed.
Definition qb (s : st) : Prop := recv_ok s /\ bad s.
Lemma qb_qi s : qb s -> qi s. Proof using Keep. intros [V B]. split; [exact V|now left]. Qed.
Lemma the_tx_got sd s : (exists u s1, the_tx sd e s = (ROk u, s1) /\ tx_get (s_idx sd s1) (s_txs s1) = Some u) \/ the_tx sd e s = (RPanic, s).
Proof using.
  unfold the_tx, bind, cur_tx. destruct (tx_get (s_idx sd s) (s_txs s)) as [t|] eqn:E; [left; exists t, s; now split|].
  destruct (_ <=? _); [right; reflexivity|]. left. eexists _, _. split; [reflexivity|]. cbn [s_txs set_s_txs]. rewrite tx_get_put. destruct sd; cbn [s_idx s_ridx s_pidx set_s_txs]; now rewrite N.eqb_refl.
Qed.
Lemma u_response_idle : trip e qi qi response_idle qi.
Proof using Keep Logs.
  unfold response_idle. apply trip_bind with (Q := qi); [apply trip_all; auto|]. intro p. destruct (pd_is_empty p); [apply trip_fail; auto|].
  apply trip_bind with (Q := qi); [apply (u_resp _ 0); intro; ok_go|]. intro t. apply trip_bind with (Q := qi).
  { destruct (prog_eqb (t_prog (x_req t)) PNotStarted); [|apply trip_ret]. cbn [when].
    assert (B : forall f, (forall s, fq s (f s)) -> trip e qi qb (modify f) qb).
    { intros f H. apply trip_all; [|exact qb_qi]. intros s [V B]. pose proof (fq_bad _ _ (H s) B) as B'. destruct (H s) as (_ & _ & _ & _ & H5). split; auto. }
    apply trip_bind with (Q := qb); [|intro; apply trip_bind with (Q := qb); [|intro]].
    - intros s [V _]. unfold log. cbn [fst snd]. destruct (N.leb_spec LvError (c_log_level (e_cfg e))) as [Q|Q]; [|lia]. split; [exact V|]. left. left. reflexivity.
    - unfold mod_tx. apply trip_all; [|exact qb_qi]. intros s [V B']. assert (R : rel 0 SResp e s (snd (the_tx SResp e s))) by (apply (ok_the0 0 SResp false (s_pidx s)); [reflexivity|discriminate]).
      destruct (the_tx_got SResp s) as [(u & s1 & E & Tg)|E]; unfold bind at 1; rewrite E in *; cbn [fst snd] in *; [|split; [exact V|exact B']].
      unfold bind, get, put_tx, modify. cbn [fst snd]. cbn [s_idx] in *. assert (V1 : recv_ok s1) by (apply (rl_trace _ _ _ _ _ R V)). split; [exact V1|].
      destruct (rel_bad _ _ _ _ R B') as [Q|(j & v & Ej & X)]; [left; exact Q|right]. cbn [s_txs set_s_txs].
      destruct (N.eq_dec j (s_pidx s1)) as [->|Nj].
      + rewrite Ej in Tg. injection Tg as ->. eexists (s_pidx s1), _. rewrite tx_get_set, N.eqb_refl, Ej. split; [reflexivity|]. exact X.
      + exists j, v. rewrite tx_get_set. destruct (N.eqb_spec j (s_pidx s1)); [congruence|]. now split.
    - eapply trip_post; [|exact qb_qi]. unfold request_next. apply trip_get. intros s0 _. eapply trip_pre; [|intros s [I _]; exact I].
      apply trip_bind with (Q := qb); [apply trip_when, B; intro; do 4 (split; [reflexivity|]); exact (fun H => H)|]. intro.
      apply trip_bind with (Q := qb); [|intro; apply B; intro; do 4 (split; [reflexivity|]); exact (fun H => H)].
      intros s I. unfold check_free. cbn [fst snd]. rewrite Keep. exact I. }
  intro. apply trip_bind with (Q := qi); [apply (u_resp _ 0); intro; ok_go|]. intro. unfold state_response_start.
  apply trip_bind with (Q := qi); [apply (u_resp _ 0); intro; ok_go|]. intro u. apply trip_bind with (Q := qi).
  { apply (u_resp _ 1). intro i. destruct (x_is09 u); [|ok_go]. apply ok_bind; [|intro; ok_go]. unfold mod_txd. ok_body tt. }
  intro. apply trip_bind with (Q := qi).
  { apply trip_get. intros s0 _. eapply trip_pre; [|intros s [I _]; exact I]. apply u_resp_hook; discriminate. }
  intro. apply (u_resp _ 0). intro. ok_go.
Qed.
Lemma u_response_complete : trip e qi qi state_response_complete qi.
Proof using Keep.
  unfold state_response_complete. apply trip_get. intros s0 _. eapply trip_pre; [|intros s [I _]; exact I].
  apply trip_bind with (Q := qi); [apply (u_resp _ 0); intro; ok_go|]. intro t. apply trip_bind with (Q := qi).
  { apply trip_when. apply trip_bind with (Q := qi); [apply (u_resp _ 1); intro; ok_go|]. intro. apply trip_bind with (Q := qi); [apply (u_resp _ 0); intro; ok_go|]. intro.
    apply trip_bind with (Q := qi); [|intro; apply (u_resp _ 0); intro; ok_go]. apply u_resp_hook; discriminate. }
  intro. apply trip_bind with (Q := qi).
  { unfold request_parser_check_waiting. apply trip_get. intros s1 _. eapply trip_pre; [|intros s [I _]; exact I]. destruct (_ && _); [apply trip_fail; auto|].
    destruct (s_other_at_end s1); [|apply trip_ret]. apply trip_bind with (Q := qi); [|intro; apply trip_fail; auto].
    apply u_frame. intro s. split; [do 4 (split; [reflexivity|]); exact (fun H => H)|reflexivity]. }
  intro. apply trip_bind with (Q := qi).
  { unfold finalize. apply trip_get. intros s1 _. eapply trip_pre; [|intros s [I _]; exact I]. destruct (tx_get _ (s_txs s1)) as [u|]; [destruct (is_complete u)|]; try apply trip_ret.
    apply u_resp_hook; discriminate. }
  intro. apply trip_bind with (Q := qi); [|intro; apply (u_resp _ 1); intro; ok_go].
  unfold response_next. apply trip_get. intros s1 _. eapply trip_pre; [|intros s [I _]; exact I]. apply trip_bind with (Q := qi).
  - intros s I. unfold check_free. cbn [fst snd]. rewrite Keep. exact I.
  - intro. apply u_frame. intro s. split; [do 4 (split; [reflexivity|]); exact (fun H => H)|reflexivity].
Qed.
Ltac ur := repeat first [ exact u_response_complete
  | match goal with
    | |- trip _ _ _ (if ?b then _ else _) _ => destruct b
    | |- trip _ _ _ (match ?l with [] => _ | _ => _ end) _ => destruct l
    | |- trip _ _ _ (match ?l with POk _ _ => _ | _ => _ end) _ => destruct l
    end
  | (apply (u_resp _ 1); intro; solve [ok_go])
  | (apply trip_bind with (Q := qi); [apply (u_resp _ 1); intro; ok_go|intro]) ].
Lemma u_response_finalize : trip e qi qi response_finalize qi.
Proof using Keep. unfold response_finalize, response_finalize_work. ur. Qed.
Lemma u_response_step : trip e qi qi handle_response_state qi.
Proof using Keep Logs.
  apply trip_all; [|auto]. intros s I. destruct (pstate_eqb (d_state (s_resp s)) StIdle) eqn:Ei.
  - assert (E : d_state (s_resp s) = StIdle) by (destruct (d_state (s_resp s)); (reflexivity || discriminate)).
    unfold handle_response_state, bind, get_d. cbn [s_dir]. rewrite E. exact (trip_snd e qi _ _ _ s u_response_idle I).
  - assert (Ni : d_state (s_resp s) <> StIdle) by (intro Q; rewrite Q in Ei; discriminate).
    destruct (ending SResp (d_state (s_resp s))) eqn:En.
    + unfold handle_response_state, bind, get_d. cbn [s_dir]. destruct (d_state (s_resp s)); try discriminate. exact (trip_snd e qi _ _ _ s u_response_finalize I).
    + eapply rel_qi; [apply ok_handle_response; assumption|exact I].
Qed.
Lemma u_either A (sd : side) (m : M A) : (forall i, ok 0 sd false i m) -> hush m -> trip e qi qi m qi.
Proof using Keep. intros H Hm. destruct sd; [exact (u_quiet _ m H Hm)|exact (u_resp _ 0 m H)]. Qed.
Lemma u_step sd : trip e qi qi (step sd) qi.
Proof using Keep Logs.
  unfold step. apply trip_bind with (Q := qi); [apply trip_all; auto|]. intro p. apply trip_bind with (Q := qi); [apply trip_all; auto|]. intro d.
  destruct (_ && _); [apply (u_either _ sd); [intro; ok_go|apply hush_bind; [apply hush_log|intro; apply hush_ret]]|].
  apply trip_bind with (Q := qi); [apply trip_try; destruct sd; [apply u_request_step|apply u_response_step]|].
  assert (Af : forall rc, trip e qi qi (after_step sd rc) qi).
  { intro rc. apply (u_either _ sd); [|apply hush_after]. intro i. unfold after_step. destruct rc as [|[]]; ok_go. }
  intros [u|x]; [|apply Af]. apply trip_bind with (Q := qi); [apply trip_all; auto|]. intro d'. destruct (sstate_eqb _ _); [apply trip_ret|].
  apply trip_bind with (Q := qi); [apply trip_try; apply (u_either _ sd); [intro; apply ok_handle_state_change|apply hush_change]|]. exact Af.
Qed.
Lemma u_loop sd n : trip e qi qi (data_loop sd n) qi.
Proof using Keep Logs.
  induction n as [|n IH]; cbn [data_loop]; [apply trip_all; auto|]. apply trip_bind with (Q := qi); [apply u_step|]. intros [x|]; [apply trip_ret|exact IH].
Qed.
(** Marking a gap on the request side may touch the transaction before its request starts. *)
Lemma u_mark sd : trip e qi qi (mark_gap sd) qi.
Proof using Keep.
  apply trip_all; [|auto]. intros s [V D]. destruct (mark_gap_same e sd s) as (M1 & M2 & M3 & M4 & M5 & M6).
  assert (R : rel 1 sd e s (snd (mark_gap sd e s))).
  { refine ((_ : ok 1 sd false (s_idx sd s) (mark_gap sd)) e s eq_refl ltac:(discriminate)). unfold mark_gap. apply ok_get. intros s0 _.
    apply ok_bind; [apply ok_cur|]. intros [t|]; [|ok_go]. apply ok_bind; [apply ok_mod_tx; intro; apply keep_of; reflexivity|]. intro. destruct (_ && _); ok_go. }
  split; [auto|]. destruct D as [B|[T D]]; [left; eapply rel_bad; eauto|right]. unfold idleish in *. rewrite M1, M3, M5. split; [exact T|].
  destruct D as [D|[D|D]]; [now left|right; now left|right; right; eapply rel_stuck; eauto].
Qed.
Lemma u_call sd c : trip e qi qi (data_call sd c) qi.
Proof using Keep Logs.
  assert (Ho : forall A (m : M A), (forall i, ok 0 sd false i m) -> hush m -> trip e qi qi m qi) by (intros; now apply (u_either _ sd)).
  unfold data_call. apply trip_bind with (Q := qi); [apply u_frame; intro; split; [do 4 (split; [reflexivity|]); exact (fun H => H)|reflexivity]|]. intro.
  apply trip_bind with (Q := qi); [apply Ho; [intro; ok_go|apply hush_upd; intros d H; exact H]|]. intro. apply trip_bind with (Q := qi); [apply trip_all; auto|]. intro d.
  assert (K : trip e qi qi (if pd_is_empty c && negb (sstate_eqb (d_status d) SsClosed) then log LvError "ZERO_LENGTH_DATA_CHUNKS" ;; ret SsClosed
      else
        modify (count_data sd (pd_len c)) ;;
        if sstate_eqb (d_status d) SsTunnel then ret SsTunnel
        else
          by_side sd (let* r := get_d SResp in when (sstate_eqb (d_status r) SsDataOther) (set_status SResp SsData)) (ret tt) ;;
          let* early := (if pd_is_gap c then mark_gap sd else ret None) in
          match early with
          | Some x => ret x
          | None => let* s := get in data_loop sd (loop_fuel sd s)
          end) qi).
  { destruct (_ && _); [apply Ho; [intro; ok_go|apply hush_bind; [apply hush_log|intro; apply hush_ret]]|].
    apply trip_bind with (Q := qi); [apply u_frame; intro; destruct sd; (split; [do 4 (split; [reflexivity|]); exact (fun H => H)|reflexivity])|]. intro.
    destruct (sstate_eqb _ _); [apply trip_ret|]. apply trip_bind with (Q := qi).
    { destruct sd; cbn [by_side]; [|apply trip_ret]. apply trip_bind with (Q := qi); [apply trip_all; auto|]. intro r. apply trip_when. apply u_frame. intro; split; [do 4 (split; [reflexivity|]); exact (fun H => H)|reflexivity]. }
    intro. apply trip_bind with (Q := qi).
    { destruct (pd_is_gap c); [|apply trip_ret]. apply u_mark. }
    intros [x|]; [apply trip_ret|]. apply trip_get. intros s0 _. eapply trip_pre; [|intros s [J _]; exact J]. apply u_loop. }
  destruct (d_status d); first [exact K|apply Ho; [intro; ok_go|apply hush_bind; [apply hush_log|intro; apply hush_ret]]].
Qed.
Lemma u_close sd : trip e qi qi (close_status sd) qi.
Proof using Keep.
  unfold close_status. apply trip_bind with (Q := qi); [apply trip_all; auto|]. intro d. apply trip_when. apply u_frame. intro; destruct sd; (split; [do 4 (split; [reflexivity|]); exact (fun H => H)|reflexivity]).
Qed.
Lemma u_for_each A (f : A -> M unit) l : (forall a, trip e qi qi (f a) qi) -> trip e qi qi (for_each f l) qi.
Proof using. intro H. induction l as [|a l IH]; cbn [for_each]; [apply trip_ret|]. apply trip_bind with (Q := qi); [apply H|intro; exact IH]. Qed.
Lemma u_op o : (forall i, o <> OpRemove i) -> trip e qi qi (run_op o) qi.
Proof using Keep Logs.
  intro Nr. destruct o; cbn [run_op].
  - apply trip_get. intros s0 _. eapply trip_pre; [|intros s [J _]; exact J]. apply trip_bind with (Q := qi); [|intro; apply trip_ret].
    destruct (_ && _); [|apply (u_either _ SReq); [intro; ok_go|apply hush_log]].
    apply trip_bind with (Q := qi); [|intro]; apply u_frame; intro; (split; [do 4 (split; [reflexivity|]); exact (fun H => H)|reflexivity]).
  - apply trip_bind with (Q := qi); [apply u_call|intro; apply trip_ret].
  - apply trip_bind with (Q := qi); [apply u_call|intro; apply trip_ret].
  - apply trip_bind with (Q := qi); [apply u_close|intro]. apply trip_bind with (Q := qi); [apply u_call|intro; apply trip_ret].
  - apply trip_bind with (Q := qi); [apply u_close|intro]. apply trip_bind with (Q := qi); [apply u_close|intro].
    apply trip_bind with (Q := qi); [apply u_call|intro]. apply trip_bind with (Q := qi); [apply u_call|intro].
    intros s I. assert (G : qi (snd ((let* e' := ask in when (c_flush (e_cfg e')) flush_incomplete_transactions ;; ret (@None sstate)) e s))).
    2:{ destruct (fst _); exact G. }
    unfold bind at 1, ask. apply (trip_snd e qi _ qi _ s); [|exact I]. apply trip_bind with (Q := qi); [|intro; apply trip_ret]. apply trip_when.
    unfold flush_incomplete_transactions. clear s I. apply trip_all; [|auto]. intros s I. unfold bind at 1, ask. revert s I.
    assert (G : trip e qi qi (let* s := get in for_each (fun i => ignore (tx_hook HTransactionComplete i) ;; when (c_auto_destroy (e_cfg e)) (modify (fun s => set_s_txs (tx_del i (s_txs s)) s)))
           (map fst (filter (fun it => is_started (snd it) && negb (is_complete (snd it))) (s_txs s)))) qi).
    { apply trip_get. intros s0 _. eapply trip_pre; [|intros s [J _]; exact J].
      apply u_for_each. intro i. apply trip_bind with (Q := qi); [apply trip_ignore, u_resp_hook; discriminate|]. intro. rewrite Keep. apply trip_ret. }
    intros s I. exact (trip_snd e qi _ qi _ s G I).
  - elim (Nr i eq_refl).
Qed.
Lemma u_ops l : Forall (fun o => forall i, o <> OpRemove i) l -> trip e qi qi (run_ops l) qi.
Proof using Keep Logs.
  induction 1 as [|o l Ho _ IH]; cbn [run_ops]; [apply trip_ret|]. apply trip_bind with (Q := qi); [now apply u_op|intro]. apply trip_bind with (Q := qi); [exact IH|intro; apply trip_ret].
Qed.
Lemma request_announced l : Forall (fun o => forall i, o <> OpRemove i) l ->
  ~ In unmatched (s_logs (snd (history e l))) -> (forall i t, tx_get i (s_txs (snd (history e l))) = Some t -> ~ expecting t) ->
  announced SReq (events (snd (history e l))).
Proof using Keep Logs.
  intros F U X. apply tok_announced. unfold history in *. assert (I : qi st_new) by (split; [split; reflexivity|right; split; [exact I|left; left; reflexivity]]).
  destruct (trip_snd e qi _ _ _ st_new (u_ops l F) I) as [_ [[B|(i & t & E & B)]|[T _]]]; [elim (U B)|elim (X i t E B)|exact T].
Qed.
End Req.
Lemma tx_get_in i t l : tx_get i l = Some t -> In (i, t) l.
Proof.
  induction l as [|[j u] l IH]; cbn [tx_get]; [discriminate|]. destruct (N.eqb_spec i j) as [->|]; intro H; [injection H as ->; now left|right; auto].
Qed.
Lemma expecting_none l : forallb (fun it => negb (is_some (headers_get_nocase (t_headers (x_req (snd it))) (s2b "expect")))) l = true ->
  forall i t, tx_get i l = Some t -> ~ expecting t.
Proof.
  intros A i t E Q. apply tx_get_in in E. unfold expecting in Q. rewrite forallb_forall in A. specialize (A _ E). cbn [snd] in A.
  destruct (headers_get_nocase _ _); [discriminate|now elim Q].
Qed.
