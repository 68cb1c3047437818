(** What the parts of a data call do to the indices, the progress of the transactions and the callbacks of either side. *)
From Verif Require Import Base ModelUtil ModelState ModelTx ModelConn SpecConn.
From Verif Require Import ProofsBase ProofsConn ProofsCore ProofsHonest.

(** * Hooks *)
(** The hooks that begin or end a message or a transaction. *)
Definition special (h : hook) : bool :=
  match h with HRequestStart | HResponseStart | HRequestComplete | HResponseComplete | HTransactionComplete => true | _ => false end.
(** The side a hook tells about; the raw data hooks are left out. *)
Definition owner (h : hook) : option side :=
  match h with
  | HRequestLine | HRequestUriNormalize | HRequestHeaders | HRequestBodyTx | HRequestBody | HRequestTrailer | HParam => Some SReq
  | HResponseLine | HResponseHeaders | HResponseBodyTx | HResponseBody | HResponseTrailer => Some SResp
  | _ => None
  end.
Definition other (sd : side) : side := match sd with SReq => SResp | SResp => SReq end.

(** * Transactions *)
Definition expects (t : tx) : Prop := headers_get_nocase (t_headers (x_req t)) (s2b "expect") <> None.
(** Level 0: nothing that is tracked changes. Level 1: progress and parser state of the own side. Level 2: the method, too. *)
Record keep (lv : N) (sd : side) (t t' : tx) : Prop := {
  kp_other : t_prog (x_dir (other sd) t') = t_prog (x_dir (other sd) t);
  kp_own : lv = 0 -> t_prog (x_dir sd t') = t_prog (x_dir sd t);
  kp_begun : t_prog (x_dir sd t) <> PNotStarted -> t_prog (x_dir sd t') <> PNotStarted;
  kp_method : lv <= 1 -> x_methodn t' = x_methodn t;
  kp_expects : expects t -> expects t' }.
Lemma keep_refl lv sd t : keep lv sd t t. Proof. constructor; auto. Qed.
Lemma keep_trans lv sd a b c : keep lv sd a b -> keep lv sd b c -> keep lv sd a c.
Proof. intros [A1 A2 A3 A4 A5] [B1 B2 B3 B4 B5]. constructor; [congruence|intro; rewrite B2, A2; auto|auto|intro; rewrite B4, A4; auto|auto]. Qed.
Lemma keep_weaken lv lv' sd t t' : lv <= lv' -> keep lv sd t t' -> keep lv' sd t t'.
Proof. intros L [A1 A2 A3 A4 A5]. constructor; auto; intros; [apply A2|apply A4]; lia. Qed.
(** A change that touches neither progress nor method nor the request headers. *)
Lemma keep_of lv sd t t' : t_prog (x_req t') = t_prog (x_req t) -> t_prog (x_resp t') = t_prog (x_resp t) -> x_methodn t' = x_methodn t ->
  t_headers (x_req t') = t_headers (x_req t) -> keep lv sd t t'.
Proof. intros A B C D. constructor; intros; destruct sd; cbn in *; unfold expects in *; congruence. Qed.

(** * States *)
Definition unable : logmsg := mk_log LvError "UNABLE_TO_MATCH_RESPONSE_TO_REQUEST".
Definition tidy (sd : side) (i : N) (s' : st) (x : event * status) : Prop :=
  special (ev_hook (fst x)) = false /\
  forall o, owner (ev_hook (fst x)) = Some o -> o = sd /\ ev_tx (fst x) = i /\ live i s'.
Record rel (lv : N) (sd : side) (e : env) (s s' : st) : Prop := {
  rl_ridx : s_ridx s' = s_ridx s;
  rl_pidx : s_pidx s' = s_pidx s;
  rl_state : lv = 0 -> d_state (s_dir sd s') = d_state (s_dir sd s);
  rl_ostate : d_state (s_dir (other sd) s') = d_state (s_dir (other sd) s) \/
              (sd = SResp /\ d_state (s_req s') = StFinalize /\ exists i t, tx_get i (s_txs s') = Some t /\ expects t);
  rl_txs : forall i t, tx_get i (s_txs s) = Some t -> exists t', tx_get i (s_txs s') = Some t' /\
           (i = s_idx sd s -> keep lv sd t t') /\ (i <> s_idx sd s -> t' = t);
  rl_new : forall i t', tx_get i (s_txs s) = None -> tx_get i (s_txs s') = Some t' -> i = s_idx sd s /\ keep lv sd tx_new t';
  rl_full : c_max_tx (e_cfg e) <= N.of_nat (length (s_txs s)) -> forall i, live i s' -> live i s;
  rl_logs : exists l, s_logs s' = l ++ s_logs s;
  rl_cap : N.of_nat (length (s_txs s)) <= c_max_tx (e_cfg e) -> N.of_nat (length (s_txs s')) <= c_max_tx (e_cfg e);
  rl_size : N.of_nat (length (s_txs s)) <= N.of_nat (length (s_txs s'));
  rl_trace : recv_ok s -> recv_ok s' /\ exists l, s_trace s' = l ++ s_trace s /\ Forall (tidy sd (s_idx sd s) s') l }.
Lemma rel_live lv sd e s s' i : rel lv sd e s s' -> live i s -> live i s'.
Proof. intros R H. unfold live in *. destruct (tx_get i (s_txs s)) as [t|] eqn:E; [|congruence]. destruct (rl_txs _ _ _ _ _ R i t E) as (t' & -> & _). discriminate. Qed.
Lemma rel_idx lv sd x e s s' : rel lv sd e s s' -> s_idx x s' = s_idx x s.
Proof. intros R. destruct x; [apply (rl_ridx _ _ _ _ _ R)|apply (rl_pidx _ _ _ _ _ R)]. Qed.
Lemma rel_refl lv sd e s : rel lv sd e s s.
Proof.
  constructor; auto; try (exists []; reflexivity).
  - intros i t E. exists t. split; [exact E|]. split; [intros _; apply keep_refl|auto].
  - intros i t' E E'. congruence.
  - lia.
  - intros H. split; [exact H|]. exists []. split; [reflexivity|constructor].
Qed.
Lemma rel_trans lv sd e a b c : rel lv sd e a b -> rel lv sd e b c -> rel lv sd e a c.
Proof.
  intros A B. pose proof (rel_idx _ _ sd _ _ _ A) as I. pose proof (rel_live _ _ _ _ _ (s_idx sd a) B) as L. destruct A as [A1 A2 A3 A4 A5 A6 A7 A8 A12 A10 A9], B as [B1 B2 B3 B4 B5 B6 B7 B8 B12 B10 B9].
  constructor.
  - congruence.
  - congruence.
  - intro Z. rewrite B3, A3 by exact Z. reflexivity.
  - destruct B4 as [E | F]; [|right; exact F]. destruct A4 as [E' | (F1 & F2 & i & t & F3 & F4)]; [left; congruence|].
    right. split; [exact F1|]. subst sd. cbn [other s_dir] in E. split; [congruence|].
    destruct (B5 i t F3) as (t' & G1 & G2 & G3). exists i, t'. split; [exact G1|].
    destruct (N.eq_dec i (s_idx SResp b)) as [Q|Q]; [now apply (kp_expects _ _ _ _ (G2 Q))|now rewrite (G3 Q)].
  - intros i t E. destruct (A5 i t E) as (t1 & E1 & K1 & O1). destruct (B5 i t1 E1) as (t2 & E2 & K2 & O2).
    exists t2. split; [exact E2|]. rewrite I in *. split; intro Q; [eapply keep_trans; eauto|]. rewrite O2, O1; auto.
  - intros i t' E E2. destruct (tx_get i (s_txs b)) as [t1|] eqn:E1.
    + destruct (A6 i t1 E E1) as (-> & K1). split; [reflexivity|]. destruct (B5 _ t1 E1) as (t2 & E3 & K2 & _).
      rewrite E2 in E3. injection E3 as <-. eapply keep_trans; eauto.
    + destruct (B6 i t' E1 E2) as [-> K]. split; congruence.
  - intros F i H. apply A7; [exact F|]. apply B7; [lia|exact H].
  - destruct A8 as [l1 E1], B8 as [l2 E2]. exists (l2 ++ l1). rewrite <- app_assoc. congruence.
  - auto.
  - lia.
  - intros H. destruct (A9 H) as (Hb & l1 & E1 & F1). destruct (B9 Hb) as (Hc & l2 & E2 & F2). split; [exact Hc|].
    exists (l2 ++ l1). split; [rewrite <- app_assoc; congruence|]. apply Forall_app. rewrite I in F2. split; [exact F2|].
    eapply Forall_impl; [|exact F1]. intros x [S O]. split; [exact S|]. intros o Ho. destruct (O o Ho) as (Q1 & Q2 & Q3). auto.
Qed.
Lemma rel_weaken lv lv' sd e s s' : lv <= lv' -> rel lv sd e s s' -> rel lv' sd e s s'.
Proof.
  intros L R. destruct R as [A1 A2 A3 A4 A5 A6 A7 A8 A12 A10 A9]. constructor; auto.
  - intro. apply A3. lia.
  - intros i t E. destruct (A5 i t E) as (t' & E' & K & O). exists t'. split; [exact E'|]. split; [|exact O]. intro Q. eapply keep_weaken; eauto.
  - intros i t' E E'. destruct (A6 i t' E E') as [Q K]. split; [exact Q|]. eapply keep_weaken; eauto.
Qed.

(** * Computations *)
(** [ok lv sd h i m]: [m] keeps [rel] from states in which [i] is the current transaction, which exists, if [h]. *)
Definition ok {A} (lv : N) (sd : side) (h : bool) (i : N) (m : M A) : Prop :=
  forall e s, s_idx sd s = i -> (h = true -> live i s) -> rel lv sd e s (snd (m e s)).
Section Ok.
Variables (lv : N) (sd : side).
Local Notation ok := (ok lv sd).
Lemma ok_pure A h i (m : M A) : (forall e s, snd (m e s) = s) -> ok h i m.
Proof. intros H e s _ _. rewrite H. apply rel_refl. Qed.
Lemma ok_ret A h i (a : A) : ok h i (ret a). Proof. now apply ok_pure. Qed.
Lemma ok_fail A h i x : ok h i (@fail A x). Proof. now apply ok_pure. Qed.
Lemma ok_panic A h i : ok h i (@panic A). Proof. now apply ok_pure. Qed.
Lemma ok_fuel A h i : ok h i (@out_of_fuel A). Proof. now apply ok_pure. Qed.
Lemma ok_ask h i : ok h i ask. Proof. now apply ok_pure. Qed.
Lemma ok_get_d h i x : ok h i (get_d x). Proof. now apply ok_pure. Qed.
Lemma ok_input h i : ok h i input. Proof. now apply ok_pure. Qed.
Lemma ok_slice h i : ok h i slice. Proof. now apply ok_pure. Qed.
Lemma ok_bind A B h i (m : M A) (k : A -> M B) : ok h i m -> (forall a, ok h i (k a)) -> ok h i (bind m k).
Proof.
  intros Hm Hk e s I H. unfold bind. specialize (Hm e s I H). destruct (m e s) as [[a|x| |] s']; cbn [snd] in *; auto.
  eapply rel_trans; [exact Hm|]. apply Hk; [now rewrite (rel_idx _ _ _ _ _ _ Hm)|]. intro E. eapply rel_live; eauto.
Qed.
Lemma ok_get A h i (k : st -> M A) : (forall s, s_idx sd s = i -> ok h i (k s)) -> ok h i (bind get k).
Proof. intros Hk e s I H. apply Hk; assumption. Qed.
Lemma ok_ignore A h i (m : M A) : ok h i m -> ok h i (ignore m).
Proof. intros Hm e s I H. unfold ignore. specialize (Hm e s I H). destruct (m e s) as [[a|x| |] s']; auto. Qed.
Lemma ok_try A h i (m : M A) : ok h i m -> ok h i (try m).
Proof. intros Hm e s I H. unfold try. specialize (Hm e s I H). destruct (m e s) as [[a|x| |] s']; auto. Qed.
Lemma ok_when h i b m : ok h i m -> ok h i (when b m).
Proof. intros H. destruct b; [exact H|apply ok_ret]. Qed.
Lemma ok_for_each A h i (f : A -> M unit) l : (forall a, ok h i (f a)) -> ok h i (for_each f l).
Proof. intros H. induction l as [|a l IH]; cbn [for_each]; [apply ok_ret|apply ok_bind; [apply H|intros _; exact IH]]. Qed.
Lemma ok_weak A h i (m : M A) : ok false i m -> ok h i m.
Proof. intros H e s I _. apply H; [exact I|discriminate]. Qed.
Lemma ok_log h i l c : ok h i (log l c).
Proof.
  intros e s I _. unfold log. cbn [snd]. destruct (l <=? _); [|apply rel_refl].
  pose proof (rel_refl lv sd e s) as [A1 A2 A3 A4 A5 A6 A7 A8 A12 A10 A9]. constructor; auto. eexists [_]. reflexivity.
Qed.
Lemma ok_logs h i l : ok h i (logs l). Proof. unfold logs. apply ok_for_each. intro. apply ok_log. Qed.
(** Everything of the state but the transactions, the trace and the log. *)
Lemma ok_modify h i f : (forall s, s_ridx (f s) = s_ridx s /\ s_pidx (f s) = s_pidx s /\ s_txs (f s) = s_txs s /\ s_logs (f s) = s_logs s /\
    s_trace (f s) = s_trace s /\ d_state (s_req (f s)) = d_state (s_req s) /\ d_state (s_resp (f s)) = d_state (s_resp s) /\
    (recv_ok s -> recv_ok (f s))) -> ok h i (modify f).
Proof.
  intros F e s _ _. cbn. destruct (F s) as (F1 & F2 & F3 & F4 & F5 & F6 & F7 & F8).
  pose proof (rel_refl lv sd e s) as [A1 A2 A3 A4 A5 A6 A7 A8 A12 A10 A9]. constructor; rewrite ?F1, ?F2, ?F3, ?F4, ?F5; auto.
  - intros _. destruct sd; assumption.
  - left. destruct sd; assumption.
  - unfold live. now rewrite F3.
  - intro R. split; [auto|]. exists []. split; [reflexivity|constructor].
Qed.
Lemma ok_upd h i x f : (forall d, d_state (f d) = d_state d /\ (raw_hook (d_recv d) = true -> raw_hook (d_recv (f d)) = true)) -> ok h i (upd_d x f).
Proof.
  intros F. apply ok_modify. intro s. destruct x; cbn; repeat split; try reflexivity; try apply F; unfold recv_ok in *; cbn; try tauto.
Qed.
Lemma ok_set_state h i x : 1 <= lv -> ok h i (set_state sd x).
Proof.
  intros L e s _ _. unfold set_state, upd_d, modify. cbn [snd].
  pose proof (rel_refl lv sd e s) as [A1 A2 A3 A4 A5 A6 A7 A8 A12 A10 A9]. constructor; destruct sd; auto; try (intro; lia).
Qed.
(** Transactions. *)
Lemma length_set i t l : length (tx_set i t l) = length l.
Proof. induction l as [|[j u] l IH]; cbn [tx_set]; [reflexivity|]. destruct (i =? j); cbn [length]; congruence. Qed.
Lemma length_put i t l : tx_get i l = None -> length (tx_put i t l) = S (length l).
Proof.
  induction l as [|[j u] l IH]; cbn [tx_put tx_get length]; [reflexivity|]. destruct (i =? j); [discriminate|]. intro E.
  destruct (i <? j); cbn [length]; [reflexivity|]. now rewrite IH.
Qed.
Lemma ok_cur h i : ok h i (cur_tx sd).
Proof.
  intros e s I _. unfold cur_tx. destruct (tx_get _ _) as [t|] eqn:E; [apply rel_refl|]. destruct (_ <=? _) eqn:F; [apply rel_refl|].
  cbn [snd]. assert (G : forall j, tx_get j (tx_put (s_idx sd s) tx_new (s_txs s)) = if j =? s_idx sd s then Some tx_new else tx_get j (s_txs s)) by (intro; apply tx_get_put).
  constructor; auto; try (exists []; reflexivity).
  - intros j t Ej. exists t. cbn [s_txs set_s_txs]. rewrite G. destruct (j =? s_idx sd s) eqn:Q; [apply N.eqb_eq in Q; congruence|].
    split; [exact Ej|]. split; [intros _; apply keep_refl|auto].
  - intros j t' Ej. cbn [s_txs set_s_txs]. rewrite G. destruct (j =? s_idx sd s) eqn:Q; [|congruence]. apply N.eqb_eq in Q. intros [= <-]. split; [exact Q|apply keep_refl].
  - lia.
  - cbn [s_txs set_s_txs]. rewrite length_put by exact E. lia.
  - cbn [s_txs set_s_txs]. rewrite length_put by exact E. lia.
  - intros R. split; [exact R|]. exists []. split; [reflexivity|constructor].
Qed.
Lemma rel_put e s t t' : tx_get (s_idx sd s) (s_txs s) = Some t -> keep lv sd t t' -> rel lv sd e s (set_s_txs (tx_set (s_idx sd s) t' (s_txs s)) s).
Proof.
  intros E K. assert (G : forall j, tx_get j (tx_set (s_idx sd s) t' (s_txs s)) = if j =? s_idx sd s then Some t' else tx_get j (s_txs s)).
  { intro j. rewrite tx_get_set. destruct (j =? s_idx sd s) eqn:Q; [|reflexivity]. apply N.eqb_eq in Q. subst j. now rewrite E. }
  constructor; auto; try (exists []; reflexivity).
  - intros j u Ej. cbn [s_txs set_s_txs]. rewrite G. destruct (j =? s_idx sd s) eqn:Q.
    + apply N.eqb_eq in Q. subst j. exists t'. split; [reflexivity|]. rewrite E in Ej. injection Ej as <-. split; [auto|congruence].
    + exists u. split; [exact Ej|]. split; [intros _; apply keep_refl|auto].
  - intros j u Ej. cbn [s_txs set_s_txs]. rewrite G. destruct (j =? s_idx sd s) eqn:Q; [|congruence]. apply N.eqb_eq in Q. congruence.
  - intros _ j. unfold live. cbn [s_txs set_s_txs]. rewrite G. destruct (j =? s_idx sd s) eqn:Q; [|auto]. apply N.eqb_eq in Q. congruence.
  - cbn [s_txs set_s_txs]. now rewrite length_set.
  - cbn [s_txs set_s_txs]. rewrite length_set. lia.
  - intros R. split; [exact R|]. exists []. split; [reflexivity|constructor].
Qed.
(** What follows [the_tx] may count on the transaction it found. *)
Definition okt {A} (i : N) (t : tx) (m : M A) : Prop :=
  forall e s, s_idx sd s = i -> tx_get i (s_txs s) = Some t -> rel lv sd e s (snd (m e s)).
Lemma ok_cur_bind A h i (k : option tx -> M A) : ok h i (k None) -> (forall t, okt i t (k (Some t))) -> ok h i (bind (cur_tx sd) k).
Proof.
  intros Kn Ks e s I H. unfold bind. pose proof (ok_cur h i e s I H) as R. unfold cur_tx in *. destruct (tx_get _ _) as [t|] eqn:E.
  - apply Ks; [exact I|congruence].
  - destruct (_ <=? _) eqn:F; [apply Kn; [exact I|exact H]|]. cbn [snd] in R. eapply rel_trans; [exact R|]. apply Ks; [rewrite <- I; destruct sd; reflexivity|].
    cbn [s_txs set_s_txs]. rewrite tx_get_put, I, N.eqb_refl. reflexivity.
Qed.
Lemma okt_ok A i t (m : M A) : ok true i m -> okt i t m.
Proof. intros H e s I E. apply H; [exact I|]. intros _. unfold live. congruence. Qed.
Lemma bind_bind A B C (m : M A) (k : A -> M B) (g : B -> M C) e s : bind (bind m k) g e s = bind m (fun a => bind (k a) g) e s.
Proof. unfold bind. destruct (m e s) as [[a|x| |] s']; reflexivity. Qed.
Lemma ok_ext A h i (m m' : M A) : (forall e s, m e s = m' e s) -> ok h i m' -> ok h i m.
Proof. intros E H e s I L. rewrite E. now apply H. Qed.
Lemma ok_need_t A h i (k : tx -> M A) : (forall t, okt i t (k t)) -> ok h i (bind (need_tx sd) k).
Proof.
  intros K. unfold need_tx. eapply ok_ext; [intros; apply bind_bind|]. apply ok_cur_bind; [apply ok_fail|exact K].
Qed.
Lemma ok_the_t A h i (k : tx -> M A) : (forall t, okt i t (k t)) -> ok h i (bind (the_tx sd) k).
Proof.
  intros K. unfold the_tx. eapply ok_ext; [intros; apply bind_bind|]. apply ok_cur_bind; [apply ok_panic|exact K].
Qed.
Lemma ok_need A h i (k : tx -> M A) : (forall t, ok true i (k t)) -> ok h i (bind (need_tx sd) k).
Proof. intros K. apply ok_need_t. intro t. apply okt_ok, K. Qed.
Lemma ok_the A h i (k : tx -> M A) : (forall t, ok true i (k t)) -> ok h i (bind (the_tx sd) k).
Proof. intros K. apply ok_the_t. intro t. apply okt_ok, K. Qed.
Lemma ok_need0 h i : ok h i (need_tx sd).
Proof. unfold need_tx. apply ok_bind; [apply ok_cur|]. intros [t|]; [apply ok_ret|apply ok_fail]. Qed.
Lemma ok_the0 h i : ok h i (the_tx sd).
Proof. unfold the_tx. apply ok_bind; [apply ok_cur|]. intros [t|]; [apply ok_ret|apply ok_panic]. Qed.
Lemma okt_put A i t t' (k : unit -> M A) : keep lv sd t t' -> ok true i (k tt) -> okt i t (bind (put_tx i t') k).
Proof.
  intros K Kk e s I E. unfold bind, put_tx, modify. cbn beta iota. subst i. pose proof (rel_put e s t t' E K) as R.
  eapply rel_trans; [exact R|]. apply Kk; [destruct sd; reflexivity|]. intros _. eapply rel_live; [exact R|]. unfold live. congruence.
Qed.
Lemma ok_mod_tx h i f : (forall t, keep lv sd t (f t)) -> ok h i (mod_tx sd f).
Proof.
  intro F. unfold mod_tx. apply ok_the_t. intros t e s I E. unfold bind, get, put_tx, modify. cbn [snd]. rewrite <- I in E. eapply rel_put; eauto.
Qed.
Lemma ok_mod_tx_log h i f : (forall t, keep lv sd t (fst (f t))) -> ok h i (mod_tx_log sd f).
Proof.
  intro F. unfold mod_tx_log. apply ok_the_t. intros t e s I E. pose proof (F t) as Ft. destruct (f t) as [t' lg]. cbn [fst] in Ft.
  unfold bind at 1, get. subst i. apply (okt_put unit (s_idx sd s) t t' (fun _ => logs lg) Ft); [apply ok_logs|reflexivity|exact E].
Qed.
Lemma ok_mod_txd h i f : (forall d, t_prog (f d) = t_prog d /\ t_headers (f d) = t_headers d) -> ok h i (mod_txd sd f).
Proof.
  intro F. apply ok_mod_tx. intro t. apply keep_of; destruct sd; cbn; try reflexivity; apply F.
Qed.
Lemma ok_set_progress h i p : 1 <= lv -> p <> PNotStarted -> ok h i (set_progress sd p).
Proof.
  intros L P. apply ok_mod_tx. intro t. constructor; destruct sd; cbn; auto; try (intro; lia).
Qed.
(** Callbacks. *)
Lemma rel_call e s h i d : special h = false -> (forall o, owner h = Some o -> o = sd /\ i = s_idx sd s /\ live i s) ->
  rel lv sd e s (snd (call h i d e s)).
Proof.
  intros Sp O. unfold call. cbn [snd]. pose proof (rel_refl lv sd e s) as [A1 A2 A3 A4 A5 A6 A7 A8 A12 A10 A9]. constructor; auto.
  intros R. split; [exact R|]. eexists [_]. split; [reflexivity|]. constructor; [|constructor]. split; [exact Sp|].
  cbn. intros o Ho. destruct (O o Ho) as (Q1 & Q2 & Q3). repeat split; auto. subst i. exact Q3.
Qed.
Lemma ok_check h i r : ok h i (check r).
Proof. destruct r; (apply ok_ret || apply ok_fail). Qed.
Lemma ok_tx_hook h i hk : special hk = false -> (owner hk = None \/ owner hk = Some sd) -> ok h i (tx_hook hk i).
Proof.
  intros Sp O e s I H. unfold tx_hook. unfold bind at 1, get. destruct (tx_get i (s_txs s)) eqn:E; [|apply rel_refl].
  assert (R : rel lv sd e s (snd (call hk i PlNone e s))).
  { apply rel_call; [exact Sp|]. intros o Ho. split; [destruct O; congruence|]. split; [congruence|]. unfold live. congruence. }
  unfold bind. destruct (call hk i PlNone e s) as [[r|x| |] s']; cbn [snd] in R; try exact R. eapply rel_trans; [exact R|].
  apply (ok_check false i); [now rewrite (rel_idx _ _ _ _ _ _ R)|discriminate].
Qed.
Lemma ok_data_hook i hk d : special hk = false -> (owner hk = None \/ owner hk = Some sd) -> ok true i (data_hook hk i d).
Proof.
  intros Sp O e s I H. unfold data_hook. assert (R : rel lv sd e s (snd (call hk i d e s))).
  { apply rel_call; [exact Sp|]. intros o Ho. split; [destruct O; congruence|]. split; [congruence|]. now apply H. }
  unfold bind. destruct (call hk i d e s) as [[r|x| |] s']; cbn [snd] in R; try exact R. eapply rel_trans; [exact R|].
  apply (ok_check false i); [now rewrite (rel_idx _ _ _ _ _ _ R)|discriminate].
Qed.
Lemma ok_call i hk d : special hk = false -> (owner hk = None \/ owner hk = Some sd) -> ok true i (call hk i d).
Proof.
  intros Sp O e s I H. apply rel_call; [exact Sp|]. intros o Ho. split; [destruct O; congruence|]. split; [congruence|]. now apply H.
Qed.
End Ok.

(** * The functions of the parser *)
Create HintDb okdb.
#[export] Hint Resolve ok_ret ok_fail ok_panic ok_fuel ok_ask ok_get_d ok_input ok_slice ok_log ok_logs ok_cur ok_need0 ok_the0 ok_check : okdb.
Ltac okside := first [ reflexivity | lia | discriminate | assumption | (left; reflexivity) | (right; reflexivity) | (intro; split; [reflexivity|tauto]) | (intro; split; [reflexivity|reflexivity]) | (intro; split; [reflexivity|intros _; reflexivity]) ].
Ltac ok_step :=
  lazymatch goal with
  | |- forall _, _ => intro
  | |- ok _ _ _ _ (bind get _) => apply ok_get; let s := fresh "s" in let I := fresh "I" in intros s I; cbn [s_idx] in I |- *; rewrite ?I
  | |- ok _ ?sd _ _ (bind (need_tx ?sd) _) => apply ok_need
  | |- ok _ ?sd _ _ (bind (the_tx ?sd) _) => apply ok_the
  | |- ok _ _ _ _ (bind _ _) => apply ok_bind
  | |- ok _ _ _ _ (ignore _) => apply ok_ignore
  | |- ok _ _ _ _ (try _) => apply ok_try
  | |- ok _ _ _ _ (when _ _) => apply ok_when
  | |- ok _ _ _ _ (for_each _ _) => apply ok_for_each
  | |- ok _ _ _ _ (by_side ?sd _ _) => destruct sd; cbn [by_side]
  | |- ok _ _ _ _ (match ?x with _ => _ end) => destruct x
  | |- ok _ _ _ _ (let _ := _ in _) => cbv zeta
  | |- ok _ _ _ _ (upd_d _ _) => apply ok_upd; okside
  | |- ok _ _ _ _ (set_state _ _) => apply ok_set_state; okside
  | |- ok _ _ _ _ (set_progress _ _) => apply ok_set_progress; okside
  | |- ok _ _ _ _ (mod_txd _ _) => apply ok_mod_txd; okside
  | |- ok _ _ _ _ (tx_hook _ _) => apply ok_tx_hook; okside
  | |- ok _ _ true _ (data_hook _ _ _) => apply ok_data_hook; okside
  | |- ok _ _ true _ (call _ _ _) => apply ok_call; okside
  | |- ok _ _ _ _ (modify _) => apply ok_modify; intro; do 7 (split; [reflexivity|]); exact (fun H => H)
  | |- _ => solve [auto 2 with okdb]
  end.
Ltac ok_go := repeat ok_step.

Section Fns.
Variables (lv : N) (sd : side).
Local Notation ok := (ok lv sd).
Lemma ok_set_status h i x y : ok h i (set_status x y). Proof. unfold set_status. ok_go. Qed.
Lemma ok_set_input h i x p : ok h i (set_input x p). Proof. unfold set_input. ok_go. Qed.
Hint Resolve ok_set_status ok_set_input : okdb.
Lemma ok_consume h i x n : ok h i (consume x n). Proof. unfold consume. ok_go. Qed.
Lemma ok_unconsume h i x n : ok h i (unconsume x n). Proof. unfold unconsume. ok_go. Qed.
Lemma ok_slice_to h i n : ok h i (slice_to n). Proof. unfold slice_to. ok_go. Qed.
Lemma ok_check_buffer_limit h i x n : ok h i (check_buffer_limit x n). Proof. unfold check_buffer_limit. ok_go. Qed.
Hint Resolve ok_consume ok_unconsume ok_slice_to ok_check_buffer_limit : okdb.
Lemma ok_absent_lf h i x : ok h i (absent_lf x). Proof. unfold absent_lf. ok_go. Qed.
Lemma ok_take_buf h i x : ok h i (take_buf x). Proof. unfold take_buf. ok_go. Qed.
Lemma ok_limit_if_buffered h i x n : ok h i (check_limit_if_buffered x n). Proof. unfold check_limit_if_buffered. ok_go. Qed.
Lemma ok_add_mlen h i n : ok h i (add_mlen sd n). Proof. unfold add_mlen. ok_go. Qed.
Lemma ok_add_elen h i n : ok h i (add_elen sd n). Proof. unfold add_elen. ok_go. Qed.
Hint Resolve ok_absent_lf ok_take_buf ok_limit_if_buffered ok_add_mlen ok_add_elen : okdb.
(** The receivers are set to raw data hooks only. *)
Lemma rel_raw e s h i d : (recv_ok s -> raw_hook (Some h) = true) -> rel lv sd e s (snd (call h i d e s)).
Proof.
  intros Rw. unfold call. cbn [snd]. pose proof (rel_refl lv sd e s) as [A1 A2 A3 A4 A5 A6 A7 A8 A12 A10 A9]. constructor; auto.
  intros R. split; [exact R|]. eexists [_]. split; [reflexivity|]. constructor; [|constructor]. specialize (Rw R).
  split; [destruct h; (reflexivity || discriminate)|]. cbn. intros o Ho. destruct h; discriminate.
Qed.
Lemma ok_receiver_send_data h i : ok h i (receiver_send_data sd).
Proof.
  unfold receiver_send_data. apply ok_bind; [ok_go|]. intro p. destruct (pd_callback_data p) as [d p']. apply ok_bind; [ok_go|]. intros _.
  apply ok_need. intros _. intros e s I _. unfold bind at 1, get. destruct (d_recv (s_dir sd s)) as [hk|] eqn:E; [|apply rel_refl].
  assert (R : rel lv sd e s (snd (call hk (s_idx sd s) (PlData d) e s))).
  { apply rel_raw. intros [R1 R2]. destruct sd; cbn [s_dir] in E; rewrite E in *; assumption. }
  unfold data_hook, bind. destruct (call hk (s_idx sd s) (PlData d) e s) as [[r|x| |] s']; cbn [snd] in R; try exact R. eapply rel_trans; [exact R|].
  apply (ok_check lv sd false i); [now rewrite (rel_idx _ _ _ _ _ _ R)|discriminate].
Qed.
Hint Resolve ok_receiver_send_data : okdb.
Lemma ok_receiver_finalize_clear h i : ok h i (receiver_finalize_clear sd). Proof. unfold receiver_finalize_clear. ok_go. Qed.
Lemma ok_handle_state_change h i : ok h i (handle_state_change sd).
Proof.
  unfold handle_state_change. apply ok_bind; [ok_go|]. intro d. destruct (pstate_eqb _ _); [ok_go|].
  apply ok_bind; [|intros _; ok_go]. destruct (pstate_eqb _ _); [|ok_go].
  apply ok_bind; [destruct sd; cbn [by_side]; ok_go|]. intro t. apply ok_bind; [ok_go|]. intros _.
  destruct (t_prog _); try (ok_go); destruct sd; cbn [by_side]; ok_go.
Qed.
Lemma ok_run_hook_body_data h i d : ok h i (run_hook_body_data sd d).
Proof. unfold run_hook_body_data. destruct sd; cbn [by_side]; ok_go.
Qed.
Hint Resolve ok_receiver_finalize_clear ok_handle_state_change ok_run_hook_body_data : okdb.
Lemma ok_decompressor_callback h i d : ok h i (decompressor_callback sd d). Proof. unfold decompressor_callback. ok_go. Qed.
Hint Resolve ok_decompressor_callback : okdb.
Lemma ok_run_tree h i t : ok h i (run_tree sd t).
Proof. induction t as [a b|d k IH]; cbn [run_tree]; ok_go. Qed.
Hint Resolve ok_run_tree : okdb.
End Fns.
#[export] Hint Resolve ok_set_status ok_set_input ok_consume ok_unconsume ok_slice_to ok_check_buffer_limit ok_absent_lf ok_take_buf ok_limit_if_buffered
  ok_add_mlen ok_add_elen ok_receiver_send_data ok_receiver_finalize_clear ok_handle_state_change ok_run_hook_body_data ok_run_tree : okdb.
Lemma ok_body_data lv sd h i d : ok lv sd h i (body_data sd d).
Proof. unfold body_data. ok_go. Qed.
#[export] Hint Resolve ok_body_data : okdb.

(** ** Transactions *)
Lemma names_get (l l' : headers_tab) k : map hd_name l' = map hd_name l -> headers_get_nocase l k <> None -> headers_get_nocase l' k <> None.
Proof.
  unfold headers_get_nocase. revert l'. induction l as [|h l IH]; intros [|h' l'] E; cbn [map] in E; try discriminate; cbn [find]; [auto|].
  injection E as E1 E2. rewrite E1. destruct (is_eq _); [discriminate|]. now apply IH.
Qed.
Lemma get_app (l l' : headers_tab) k : headers_get_nocase l k <> None -> headers_get_nocase (l ++ l') k <> None.
Proof.
  unfold headers_get_nocase. induction l as [|h l IH]; cbn [find app]; [congruence|]. destruct (is_eq _); [discriminate|exact IH].
Qed.
Lemma update_first_names p ex (l : headers_tab) : find p l = Some ex -> forall ex', hd_name ex' = hd_name ex -> map hd_name (update_first p (fun _ => ex') l) = map hd_name l.
Proof.
  intros F ex' E. induction l as [|h l IH]; cbn [find update_first] in *; [discriminate|]. destruct (p h) eqn:P.
  - injection F as ->. cbn [map]. now rewrite E.
  - cbn [map]. now rewrite IH.
Qed.
Lemma merge_expects sd h d k : headers_get_nocase (t_headers d) k <> None -> headers_get_nocase (t_headers (fst (merge_header sd h d))) k <> None.
Proof.
  intro H. unfold merge_header. destruct (headers_get_nocase (t_headers d) (hd_name h)) as [ex|] eqn:F; [|cbn; now apply get_app].
  cbv zeta. destruct (_ && _); [exact H|]. cbn [fst t_headers set_t_reps set_t_headers]. eapply names_get; [|exact H].
  eapply update_first_names; [exact F|reflexivity].
Qed.
Lemma merge_prog sd h d : t_prog (fst (merge_header sd h d)) = t_prog d.
Proof. unfold merge_header. destruct headers_get_nocase; [|reflexivity]. cbv zeta. destruct (_ && _); reflexivity. Qed.
Lemma add_header_keep lv sd h t : keep lv sd t (fst (add_header sd h t)).
Proof.
  unfold add_header. destruct (header_flags sd h (x_flags t)) as [[xf hf] lg]. cbv zeta.
  pose proof (fun h d => merge_prog sd h d) as P. pose proof (fun h d => merge_expects sd h d (s2b "expect")) as X.
  destruct (merge_header _ _ _) as [d lg2] eqn:E. cbn [fst].
  match type of E with merge_header _ ?a ?b = _ => specialize (P a b); specialize (X a b) end. rewrite E in P, X. cbn [fst] in P, X.
  destruct sd; constructor; cbn in *; unfold expects; cbn; auto; congruence.
Qed.
Lemma ok_parse_headers lv sd h i d : ok lv sd h i (parse_headers sd d).
Proof. unfold parse_headers. ok_go. apply ok_mod_tx_log. intro t'. apply add_header_keep. Qed.
Lemma encoding_list_same sd c l : forall n z d, t_prog (fst (encoding_list sd c n z l d)) = t_prog d /\ t_headers (fst (encoding_list sd c n z l d)) = t_headers d.
Proof.
  assert (P : forall ce d, t_prog (prepend_decompressor ce d) = t_prog d /\ t_headers (prepend_decompressor ce d) = t_headers d).
  { intros ce d. destruct ce; cbn; try (split; reflexivity); destruct (t_dec d); split; reflexivity. }
  induction l as [|v l IH]; intros n z d; cbn [encoding_list]; [split; reflexivity|]. destruct (is_nil v); [apply IH|]. cbv zeta.
  destruct (over _ _); [split; reflexivity|]. destruct (token_encoding v) as [ce lg]. destruct (_ && _); [split; reflexivity|].
  match goal with |- context [encoding_list sd c ?a ?b l ?x] => pose proof (IH a b x) as H; destruct (encoding_list sd c a b l x) as [d' lg'] end.
  cbn [fst] in *. destruct (P ce d) as [P1 P2]. rewrite <- P1, <- P2. exact H.
Qed.
Lemma initialize_same sd c d : t_prog (fst (initialize_decompressors sd c d)) = t_prog d /\ t_headers (fst (initialize_decompressors sd c d)) = t_headers d.
Proof.
  unfold initialize_decompressors. destruct (match headers_get_nocase_nozero _ _ with Some h => _ | None => _ end) as [f b]. cbv zeta.
  destruct (if decompression_enabled sd c then f else CeNone); cbn [fst prepend_decompressor].
  { destruct headers_get_nocase_nozero as [h|]; [|split; reflexivity]. destruct (_ && b); [|split; reflexivity].
    match goal with |- context [encoding_list ?q ?c ?a ?b ?l ?x] => pose proof (encoding_list_same q c l a b x) as H end. exact H. }
  all: destruct (t_dec _); split; reflexivity.
Qed.
Lemma ok_init_decompressors lv sd h i : ok lv sd h i (init_decompressors sd).
Proof.
  unfold init_decompressors. ok_go. apply ok_mod_tx_log. intro t'.
  match goal with |- context [initialize_decompressors sd ?c ?d] => pose proof (initialize_same sd c d) as [H1 H2]; destruct (initialize_decompressors sd c d) as [d' lg] end.
  cbn [fst] in *. apply keep_of; destruct sd; cbn in *; congruence.
Qed.
#[export] Hint Resolve ok_parse_headers ok_init_decompressors : okdb.
Record alike_tx (t t' : tx) : Prop := {
  al_req : t_prog (x_req t') = t_prog (x_req t);
  al_resp : t_prog (x_resp t') = t_prog (x_resp t);
  al_method : x_methodn t' = x_methodn t;
  al_headers : t_headers (x_req t') = t_headers (x_req t) }.
Lemma al_keep lv sd t t' : alike_tx t t' -> keep lv sd t t'.
Proof. intros [A B C D]. now apply keep_of. Qed.
Lemma al_refl t : alike_tx t t. Proof. now constructor. Qed.
Lemma al_trans a b c : alike_tx a b -> alike_tx b c -> alike_tx a c.
Proof. intros [] []. constructor; congruence. Qed.
Lemma al_framing t : alike_tx t (fst (request_framing t)).
Proof.
  unfold request_framing. destruct headers_get_nocase_nozero.
  - destruct (negb _); [constructor; reflexivity|]. cbv zeta. cbn [fst].
    destruct (is_some _), (proto_ltb _ _); constructor; reflexivity.
  - destruct headers_get_nocase_nozero as [cl|]; [|constructor; reflexivity]. cbv zeta.
    destruct (parse_content_length_log _) as [n lg]. cbn [fst]. destruct n, (fis_set _ _), (fis_set _ _); constructor; reflexivity.
Qed.
Lemma al_host ip6 t : alike_tx t (request_host ip6 t).
Proof.
  unfold request_host.
  assert (A : forall t1, alike_tx t t1 -> alike_tx t (match headers_get_nocase_nozero (t_headers (x_req t1)) (s2b "host") with
  | Some h =>
      match parse_hostport ip6 (hd_value h) with
      | POk _ (hostname, port_nmb, valid) =>
          let t := if valid then t1 else add_flag HOSTH_INVALID t1 in
          match x_host t with
          | None =>
              let t := set_x_host (Some (lowers hostname)) t in
              match port_nmb with Some (_, p) => set_x_port p t | None => t end
          | Some host =>
              let t := if is_eq (cmp_nocase host hostname) then t else add_flag HOST_AMBIGUOUS t in
              match port_nmb with
              | Some (_, p) =>
                  match x_port t with
                  | Some n => if (match p with Some m => n =? m | None => false end) then t else add_flag HOST_AMBIGUOUS t
                  | None => t
                  end
              | None => t
              end
          end
      | _ => if is_some (x_host t1) then add_flag HOST_AMBIGUOUS t1 else t1
      end
  | None => if proto_ltb (t_proton (x_req t1)) ProtoV1_1 then t1 else add_flag HOST_MISSING t1
  end)).
  { intros t1 A1. assert (F : forall f t2, alike_tx t t2 -> alike_tx t (add_flag f t2)) by (intros f t2 A2; eapply al_trans; [exact A2|constructor; reflexivity]).
    assert (H : forall f t2, alike_tx t t2 -> alike_tx t (set_x_host f t2)) by (intros f t2 A2; eapply al_trans; [exact A2|constructor; reflexivity]).
    assert (P : forall f t2, alike_tx t t2 -> alike_tx t (set_x_port f t2)) by (intros f t2 A2; eapply al_trans; [exact A2|constructor; reflexivity]).
    destruct headers_get_nocase_nozero as [h|]; [|destruct (proto_ltb _ _); auto].
    destruct (parse_hostport ip6 (hd_value h)) as [r [[hn pn] v]| |].
    { cbv zeta. assert (A2 : alike_tx t (if v then t1 else add_flag HOSTH_INVALID t1)) by (destruct v; auto).
      set (t2 := if v then t1 else add_flag HOSTH_INVALID t1) in *. clearbody t2. destruct (x_host t2) as [ho|].
      - assert (A3 : alike_tx t (if is_eq (cmp_nocase ho hn) then t2 else add_flag HOST_AMBIGUOUS t2)) by (destruct (is_eq _); auto).
        set (t3 := if is_eq (cmp_nocase ho hn) then t2 else add_flag HOST_AMBIGUOUS t2) in *. clearbody t3.
        destruct pn as [[q p]|]; [|exact A3]. destruct (x_port t3); [|exact A3]. destruct (match p with Some m => _ | None => _ end); auto.
      - destruct pn as [[q p]|]; auto. }
    all: destruct (is_some _); auto. }
  cbv zeta in *. apply A. destruct (parsed_hostname t) as [h|].
  - destruct (parsed_port_number _); constructor; reflexivity.
  - destruct (parsed_port_number _); constructor; reflexivity.
Qed.
Lemma al_auth b b64 t : alike_tx t (request_auth b b64 t).
Proof.
  unfold request_auth. destruct b; [|apply al_refl]. assert (A : alike_tx t (fst (parse_authorization b64 t))).
  { unfold parse_authorization. destruct headers_get_nocase_nozero as [h|]; [|constructor; reflexivity]. cbv zeta.
    destruct (starts_with_nocase _ _).
    { unfold parse_authorization_basic. destruct (pbind _ _ _) as [r x| |]; try (constructor; reflexivity).
      destruct (b64 r); [|constructor; reflexivity]. destruct (find_sub _ _) as [[u c]|]; constructor; reflexivity. }
    destruct (starts_with_nocase _ _); [destruct (parse_authorization_digest _); constructor; reflexivity|].
    destruct (starts_with_nocase _ _); [destruct (pbind _ _ _); constructor; reflexivity|]. constructor; reflexivity. }
  destruct (parse_authorization b64 t) as [t1 d]. cbn [fst] in A. destruct d; [|exact A]. eapply al_trans; [exact A|constructor; reflexivity].
Qed.
Lemma al_process pa ip6 b64 t : alike_tx t (snd (fst (process_request_headers pa ip6 b64 t))).
Proof.
  unfold process_request_headers. pose proof (al_framing t) as A. destruct (request_framing t) as [t1 lg]. cbn [fst] in A.
  assert (B : alike_tx t (request_host ip6 t1)) by (eapply al_trans; [exact A|apply al_host]). cbv zeta.
  destruct headers_get_nocase_nozero as [ct|].
  - destruct (parse_content_type _); cbn [fst snd]; [|exact B]. eapply al_trans; [|apply al_auth]. eapply al_trans; [exact B|constructor; reflexivity].
  - cbn [fst snd]. eapply al_trans; [exact B|apply al_auth].
Qed.
Lemma al_uri ip6 c t t' : parse_request_uri ip6 c t = Some t' -> alike_tx t t'.
Proof.
  unfold parse_request_uri. destruct (if is_method (x_methodn t) "CONNECT" then _ else _) as [[raw fl]|]; [|discriminate]. intros [= <-].
  destruct (is_some _); [constructor; reflexivity|]. unfold normalize_parsed_uri.
  repeat match goal with |- context [let '(_, _) := ?x in _] => destruct x as [? ?] end.
  constructor; reflexivity.
Qed.
Lemma al_hostname ip6 t : alike_tx t (check_uri_hostname ip6 t).
Proof. unfold check_uri_hostname. destruct (parsed_hostname t); [|apply al_refl]. destruct (validate_hostname _ _); constructor; reflexivity. Qed.
Lemma al_normal c t : alike_tx t (fst (store_normalized_uri c t)).
Proof. unfold store_normalized_uri. destruct (x_parsed t); [|apply al_refl]. destruct (generate_normalized_uri _ _) as [[a b] n]. constructor; reflexivity. Qed.
Lemma al_response_line t : alike_tx t (fst (validate_response_line t)).
Proof. unfold validate_response_line. cbv zeta. cbn [fst]. destruct (t_proton _); cbn; destruct (negb _); constructor; reflexivity. Qed.
Lemma al_conn_response l t : alike_tx t (fst (conn_parse_response_line l t)).
Proof.
  unfold conn_parse_response_line. cbv zeta.
  repeat match goal with |- context [let '(_, _) := ?x in _] => destruct x as [? ?] end.
  repeat match goal with |- context [if ?x then _ else _] => destruct x end; constructor; reflexivity.
Qed.
Lemma al_conn_request c l t : keep 2 SReq t (fst (conn_parse_request_line c l t)).
Proof.
  assert (A : forall t', t_prog (x_req t') = t_prog (x_req t) -> t_prog (x_resp t') = t_prog (x_resp t) ->
    t_headers (x_req t') = t_headers (x_req t) -> keep 2 SReq t t').
  { intros t' A B C. constructor; cbn; intros; unfold expects in *; first [congruence|lia]. }
  unfold conn_parse_request_line. cbv zeta.
  repeat match goal with |- context [let '(_, _) := ?x in _] => destruct x as [? ?] end.
  repeat match goal with |- context [if ?x then _ else _] => destruct x end; apply A; reflexivity.
Qed.

(** ** Requests *)
Lemma ok_tx_parse_request_line lv h i : ok lv SReq h i tx_parse_request_line.
Proof.
  unfold tx_parse_request_line. apply ok_bind; [ok_go|]. intro e. apply ok_the_t. intro t.
  destruct (parse_request_uri _ _ t) as [t'|] eqn:E; [|apply okt_ok; ok_go].
  intros e' s I H. unfold bind at 1, get. cbn [s_idx] in I. rewrite I.
  refine (okt_put lv SReq _ i t t' _ (al_keep _ _ _ _ (al_uri _ _ _ _ E)) _ e' s I H). ok_go. apply ok_mod_tx. intro t2. apply al_keep, al_hostname.
Qed.
#[export] Hint Resolve ok_tx_parse_request_line : okdb.
Lemma ok_state_request_line lv h i : 1 <= lv -> ok lv SReq h i state_request_line.
Proof.
  intro L. unfold state_request_line. ok_go. apply ok_mod_tx_log. intro t'. apply al_keep, al_normal.
Qed.
Lemma ok_request_line h i : ok 2 SReq h i request_line.
Proof.
  assert (C : forall h l, ok 2 SReq h i (request_line_complete l)).
  { intros h' l. unfold request_line_complete. ok_go.
    - apply ok_mod_tx_log. intro. apply al_conn_request.
    - apply ok_state_request_line. lia. }
  unfold request_line. ok_go; apply C.
Qed.
Lemma ok_state_request_headers h i : ok 1 SReq h i state_request_headers.
Proof.
  unfold state_request_headers. apply ok_bind; [ok_go|]. intros _. apply ok_need. intro t. cbv zeta. destruct (_ <? _); [ok_go|]. destruct (_ <=? _); [|ok_go].
  apply ok_get. intros s I. cbn [s_idx] in I. rewrite I. apply ok_bind; [ok_go|]. intro e. apply ok_bind.
  { ok_go. apply ok_mod_tx. intro t'. apply keep_of; reflexivity. }
  intros _. apply ok_the_t. intro t'. pose proof (al_process (c_parse_auth (e_cfg e)) (e_ip6 e) (e_b64 e) t') as A.
  destruct (process_request_headers _ _ _ t') as [[ok t2] lg]. cbn [fst snd] in A.
  apply okt_put; [apply al_keep; exact A|]. ok_go.
Qed.
#[export] Hint Resolve ok_state_request_headers : okdb.
Lemma ok_request_chunked_loop n : forall h i d, ok 1 SReq h i (request_chunked_length_loop n d).
Proof. induction n as [|n IH]; intros h i d; cbn [request_chunked_length_loop]; ok_go; apply IH. Qed.
#[export] Hint Resolve ok_request_chunked_loop : okdb.
Lemma ok_body_chunked_data sd h i : ok 1 sd h i (body_chunked_data sd).
Proof. unfold body_chunked_data. ok_go. Qed.
#[export] Hint Resolve ok_body_chunked_data : okdb.
Lemma ok_request_protocol h i : ok 1 SReq h i request_protocol.
Proof.
  unfold request_protocol. ok_go. apply ok_mod_tx. intro t'. constructor; cbn; auto; try (intro; lia); discriminate.
Qed.
Lemma ok_request_headers h i : ok 1 SReq h i request_headers.
Proof.
  unfold request_headers. ok_go. apply ok_mod_tx. intro t'. constructor; cbn; auto; try (intro; lia); discriminate.
Qed.
(** The states in which a request can be completed; and those in which none has been started. *)
Definition ending (sd : side) (x : pstate) : bool :=
  match sd, x with SReq, (StFinalize | StConnectProbe) | SResp, StFinalize => true | _, _ => false end.
Lemma ok_handle_request e s : d_state (s_req s) <> StIdle -> ending SReq (d_state (s_req s)) = false ->
  rel (if pstate_eqb (d_state (s_req s)) StLine then 2 else 1) SReq e s (snd (handle_request_state e s)).
Proof.
  intros N1 N2. unfold handle_request_state. unfold bind, get_d. cbn [s_dir].
  assert (D : forall (m : M unit) lv, ok lv SReq false (s_ridx s) m -> rel lv SReq e s (snd (m e s))).
  { intros m lv H. apply H; [reflexivity|discriminate]. }
  destruct (d_state (s_req s)); try discriminate; try congruence; cbn [pstate_eqb]; apply D;
    first [ apply ok_request_line | apply ok_request_protocol | apply ok_request_headers | idtac ].
  all: unfold request_connect_check, request_connect_wait_response, request_body_determine, request_body_chunked_length, request_body_chunked_data_end,
    request_body_identity, request_ignore_data_after_http_0_9; ok_go.
Qed.

(** ** Responses *)
Lemma ok_state_response_headers lv h i : ok lv SResp h i state_response_headers.
Proof. unfold state_response_headers. ok_go. Qed.
Lemma ok_state_response_line lv h i : ok lv SResp h i state_response_line.
Proof. unfold state_response_line. ok_go. apply ok_mod_tx_log. intro. apply al_keep, al_response_line. Qed.
#[export] Hint Resolve ok_state_response_headers ok_state_response_line : okdb.
Lemma ok_http_ahead lv sd h i l : ok lv sd h i (http_ahead l). Proof. unfold http_ahead. ok_go. Qed.
#[export] Hint Resolve ok_http_ahead : okdb.
Ltac ok_body p := apply ok_mod_tx; intro; constructor; cbn; auto; try (intro; lia); discriminate.
Lemma ok_response_chunked_loop n : forall h i d, ok 1 SResp h i (response_chunked_length_loop n d).
Proof. induction n as [|n IH]; intros h i d; cbn [response_chunked_length_loop]; ok_go; apply IH. Qed.
#[export] Hint Resolve ok_response_chunked_loop : okdb.
Lemma ok_response_line h i : ok 1 SResp h i response_line.
Proof.
  assert (C : forall h l, ok 1 SResp h i (response_line_complete l)).
  { intros h' l. unfold response_line_complete. ok_go.
    - apply ok_mod_tx. intro t'. apply keep_of; reflexivity.
    - ok_body tt.
    - apply ok_mod_tx_log. intro t'. apply al_keep, al_conn_response. }
  unfold response_line. ok_go; apply C.
Qed.
Lemma ok_response_headers h i : ok 1 SResp h i response_headers.
Proof. unfold response_headers, response_trailer_done. ok_go. Qed.
Lemma ok_response_framing h i cl te : ok 1 SResp h i (response_body_framing cl te).
Proof. unfold response_body_framing. ok_go; first [ok_body tt | apply ok_mod_tx; intro; apply keep_of; reflexivity]. Qed.
#[export] Hint Resolve ok_response_framing : okdb.
Lemma ok_response_presence h i cl te : ok 1 SResp h i (response_body_presence cl te).
Proof. unfold response_body_presence. ok_go. Qed.
#[export] Hint Resolve ok_response_presence : okdb.
Lemma ok_forced i t : okt 1 SResp i t (match headers_get_nocase (t_headers (x_req t)) (s2b "expect") with
            | Some h => when (bytes_eqb (hd_value h) (s2b "100-continue")) (set_state SReq StFinalize)
            | None => ret tt
            end).
Proof.
  intros e s I E. destruct headers_get_nocase as [h|] eqn:X; [|apply rel_refl]. unfold when. destruct (bytes_eqb _ _); [|apply rel_refl].
  unfold set_state, upd_d, modify. cbn [snd]. pose proof (rel_refl 1 SResp e s) as [A1 A2 A3 A4 A5 A6 A7 A8 A12 A10 A9]. constructor; auto.
  right. split; [reflexivity|]. split; [reflexivity|]. exists i, t. split; [exact E|]. unfold expects. rewrite X. discriminate.
Qed.
Lemma okt_bind A B lv sd i t (m : M A) (k : A -> M B) : okt lv sd i t m -> (forall a, ok lv sd true i (k a)) -> okt lv sd i t (bind m k).
Proof.
  intros Hm Hk e s I E. unfold bind. specialize (Hm e s I E). destruct (m e s) as [[a|x| |] s']; cbn [snd] in *; auto.
  eapply rel_trans; [exact Hm|]. apply Hk; [now rewrite (rel_idx _ _ _ _ _ _ Hm)|]. intros _. eapply rel_live; [exact Hm|]. unfold live. congruence.
Qed.
Lemma ok_response_determine h i : ok 1 SResp h i response_body_determine.
Proof.
  unfold response_body_determine, resume_requests. apply ok_need. intro t. destruct (_ && _); [ok_go|]. apply ok_bind; [ok_go|]. intros _.
  apply ok_the_t. intro t'. cbv zeta. intros e s I E. unfold bind at 1, get_d at 1.
  assert (D : forall (m : M unit), ok 1 SResp true i m -> rel 1 SResp e s (snd (m e s))).
  { intros m H. apply H; [exact I|]. intros _. unfold live. congruence. }
  destruct (eq_num (x_statusn t') 101).
  { apply D. ok_go. apply ok_mod_tx. intro. apply keep_of; reflexivity. }
  destruct (_ && negb (is_some _)).
  { apply D. destruct (match headers_get_nocase_nozero _ _ with Some _ => _ | None => _ end) as [len lg]. ok_go. ok_body tt. }
  refine (okt_bind _ _ 1 SResp i t' _ _ _ _ e s I E); [|intros _; ok_go].
  intros e' s' I' E'. unfold when at 1. destruct (_ && _); [|apply rel_refl]. apply (ok_forced i t' e' s' I' E').
Qed.
Lemma ok_handle_response e s : d_state (s_resp s) <> StIdle -> ending SResp (d_state (s_resp s)) = false ->
  rel 1 SResp e s (snd (handle_response_state e s)).
Proof.
  intros N1 N2. unfold handle_response_state. unfold bind, get_d. cbn [s_dir].
  assert (D : forall (m : M unit), ok 1 SResp false (s_pidx s) m -> rel 1 SResp e s (snd (m e s))).
  { intros m H. apply H; [reflexivity|discriminate]. }
  destruct (d_state (s_resp s)); try discriminate; try congruence; apply D;
    first [ apply ok_response_line | apply ok_response_headers | apply ok_response_determine | idtac ].
  all: unfold response_body_chunked_length, response_body_chunked_data_end, response_body_identity_stream_close, response_body_identity_cl_known; ok_go.
Qed.
