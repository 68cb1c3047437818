(** What one step of a state machine does to its own direction: it keeps the invariants of the buffer and the input
    position, does not fault, and brings the loop closer to its end. *)
From Verif Require Import Base ModelState ModelTx ModelConn Spec.
From Verif Require Import ProofsBase ProofsParsers ProofsHeaders ProofsConn.

(** * Computations that leave the state machines alone *)
Definition live (i : N) (s : st) : Prop := tx_get i (s_txs s) <> None.
Definition has (sd : side) (s : st) : Prop := live (s_idx sd s) s.
Definition frame (s : st) : st := set_s_txs [] (set_s_trace [] (set_s_logs [] s)).
Definition inner (_ : env) (s s' : st) : Prop := frame s' = frame s /\ forall i, live i s -> live i s'.
Definition nofault {A} (r : res A) : Prop := r <> RPanic /\ r <> RFuel.

Lemma inner_refl e s : inner e s s.
Proof. split; auto. Qed.
Lemma inner_trans e a b c : inner e a b -> inner e b c -> inner e a c.
Proof. intros [E L] [E' L']. split; [congruence|auto]. Qed.

Lemma tx_get_set i j t l : tx_get i (tx_set j t l) = if i =? j then (if is_some (tx_get i l) then Some t else None) else tx_get i l.
Proof.
  induction l as [|[k u] l IH]; cbn [tx_set tx_get]; [now destruct (i =? j)|].
  destruct (j =? k) eqn:E1; cbn [tx_get]; destruct (i =? k) eqn:E2; destruct (i =? j) eqn:E3; cbn [is_some]; try reflexivity; lia || (rewrite IH; rewrite ?E3; try reflexivity; lia) || idtac.
Qed.
Lemma tx_get_put i j t l : tx_get i (tx_put j t l) = if i =? j then Some t else tx_get i l.
Proof.
  induction l as [|[k u] l IH]; cbn [tx_put tx_get]; [reflexivity|].
  destruct (j =? k) eqn:E1; cbn [tx_get].
  - destruct (i =? k) eqn:E2, (i =? j) eqn:E3; try reflexivity; lia.
  - destruct (j <? k) eqn:E2; cbn [tx_get].
    + destruct (i =? j); reflexivity.
    + rewrite IH. destruct (i =? k) eqn:E3, (i =? j) eqn:E4; try reflexivity; lia.
Qed.
Lemma is_some_neq {A} (o : option A) : is_some o = true <-> o <> None.
Proof. destruct o; cbn; split; congruence. Qed.

Lemma inner_log lv c : stable inner (log lv c).
Proof. intros e s. unfold log. cbn [snd]. destruct (lv <=? _); split; auto. Qed.
Lemma inner_call h i d : stable inner (call h i d).
Proof. intros e s. split; auto. Qed.
Lemma inner_cur sd : stable inner (cur_tx sd).
Proof.
  intros e s. unfold cur_tx. destruct (tx_get _ _) eqn:E; [apply inner_refl|].
  destruct (_ <=? _); [apply inner_refl|]. cbn [snd]. split; [reflexivity|].
  intros i. unfold live. cbn [s_txs set_s_txs]. rewrite tx_get_put. destruct (i =? _); congruence.
Qed.
Lemma inner_put i t : stable inner (put_tx i t).
Proof.
  intros e s. split; [reflexivity|]. intros j. unfold live. cbn. rewrite tx_get_set.
  destruct (j =? i); [|auto]. rewrite <- is_some_neq. intros ->. congruence.
Qed.

Lemma inner_has e s s' sd : inner e s s' -> has sd s -> has sd s'.
Proof.
  intros [F L] H. unfold has in *. apply L in H. replace (s_idx sd s') with (s_idx sd s); [exact H|].
  destruct sd; [apply (f_equal s_ridx) in F|apply (f_equal s_pidx) in F]; cbn in *; congruence.
Qed.

(** [calm sd h m]: [m] is such a computation; it does not fault, if [h], as long as its transaction is there. *)
Definition calm {A} (sd : side) (h : bool) (m : M A) : Prop :=
  stable inner m /\ forall e s, (h = true -> has sd s) -> nofault (fst (m e s)).

Lemma calm_weaken A sd h (m : M A) : calm sd false m -> calm sd h m.
Proof. intros [S F]. split; [exact S|]. intros e s _. apply F. discriminate. Qed.
Lemma calm_ret A sd h (a : A) : calm sd h (ret a).
Proof. split; [apply stable_ret, inner_refl|]. intros e s _. split; discriminate. Qed.
Lemma calm_fail A sd h x : calm sd h (@fail A x).
Proof. split; [apply stable_fail, inner_refl|]. intros e s _. split; discriminate. Qed.
Lemma calm_get sd h : calm sd h get.
Proof. split; [apply stable_get, inner_refl|]. intros e s _. split; discriminate. Qed.
Lemma calm_ask sd h : calm sd h ask.
Proof. split; [apply stable_ask, inner_refl|]. intros e s _. split; discriminate. Qed.
Lemma calm_get_d sd h x : calm sd h (get_d x).
Proof. split; [apply stable_get_d, inner_refl|]. intros e s _. split; discriminate. Qed.
Lemma calm_input sd h : calm sd h input.
Proof. split; [apply stable_input, inner_refl|]. intros e s _. split; discriminate. Qed.
Lemma calm_slice sd h : calm sd h slice.
Proof. split; [apply stable_slice, inner_refl|]. intros e s _. split; discriminate. Qed.
Lemma calm_bind A B sd h (m : M A) (k : A -> M B) : calm sd h m -> (forall a, calm sd h (k a)) -> calm sd h (bind m k).
Proof.
  intros [S F] K. split; [apply stable_bind; [exact inner_trans|exact S|intro a; apply K]|].
  intros e s H. specialize (S e s). specialize (F e s H). unfold bind. destruct (m e s) as [[a|x| |] s']; cbn [fst snd] in *.
  - apply K. intros E. eapply inner_has; eauto.
  - split; discriminate.
  - destruct F; congruence.
  - destruct F; congruence.
Qed.
Lemma calm_ignore A sd h (m : M A) : calm sd h m -> calm sd h (ignore m).
Proof.
  intros [S F]. split; [apply stable_ignore; exact S|]. intros e s H. specialize (F e s H).
  unfold ignore. destruct (m e s) as [[a|x| |] s']; cbn [fst] in *; try (destruct F; congruence); split; discriminate.
Qed.
Lemma calm_try A sd h (m : M A) : calm sd h m -> calm sd h (try m).
Proof.
  intros [S F]. split; [apply stable_try; exact S|]. intros e s H. specialize (F e s H).
  unfold try. destruct (m e s) as [[a|x| |] s']; cbn [fst] in *; try (destruct F; congruence); split; discriminate.
Qed.
Lemma calm_when sd h b m : calm sd h m -> calm sd h (when b m).
Proof. intro H. destruct b; [exact H|apply calm_ret]. Qed.
Lemma calm_for_each A sd h (f : A -> M unit) l : (forall a, calm sd h (f a)) -> calm sd h (for_each f l).
Proof. intro H. induction l as [|a l IH]; cbn [for_each]; [apply calm_ret|apply calm_bind; auto]. Qed.
Lemma calm_log sd h lv c : calm sd h (log lv c).
Proof. split; [apply inner_log|]. intros e s _. split; discriminate. Qed.
Lemma calm_call sd h hk i d : calm sd h (call hk i d).
Proof. split; [apply inner_call|]. intros e s _. split; discriminate. Qed.
Lemma calm_cur sd h x : calm sd h (cur_tx x).
Proof. split; [apply inner_cur|]. intros e s _. unfold cur_tx. destruct (tx_get _ _); [|destruct (_ <=? _)]; split; discriminate. Qed.
Lemma calm_put sd h i t : calm sd h (put_tx i t).
Proof. split; [apply inner_put|]. intros e s _. split; discriminate. Qed.
Lemma the_tx_eval sd e s : has sd s -> exists t, the_tx sd e s = (ROk t, s) /\ tx_get (s_idx sd s) (s_txs s) = Some t.
Proof.
  unfold has, live, the_tx, bind, cur_tx. intro H. destruct (tx_get _ _) as [t|]; [|congruence]. exists t. split; reflexivity.
Qed.
Lemma calm_the sd : calm sd true (the_tx sd).
Proof.
  split; [apply c_the_tx; [exact inner_refl|exact inner_trans|exact inner_cur]|]. intros e s H.
  destruct (the_tx_eval sd e s (H eq_refl)) as (t & -> & _). split; discriminate.
Qed.
Lemma need_tx_eval sd e s :
  (exists t s', need_tx sd e s = (ROk t, s') /\ has sd s' /\ inner e s s' /\ tx_get (s_idx sd s') (s_txs s') = Some t)
  \/ need_tx sd e s = (RErr SError, s).
Proof.
  pose proof (inner_cur sd e s) as I. unfold need_tx, bind. unfold has, live. unfold cur_tx in *.
  destruct (tx_get (s_idx sd s) (s_txs s)) as [t|] eqn:E.
  - left. exists t, s. repeat split; try congruence.
  - destruct (_ <=? _); [now right|]. left. exists tx_new. eexists. split; [reflexivity|].
    replace (s_idx sd (set_s_txs _ s)) with (s_idx sd s) by (destruct sd; reflexivity).
    cbn [s_txs set_s_txs]. rewrite tx_get_put, N.eqb_refl. cbn [snd] in I. repeat split; try congruence; apply I.
Qed.
Lemma calm_need_bind A sd h (k : tx -> M A) : (forall t, calm sd true (k t)) -> calm sd h (bind (need_tx sd) k).
Proof.
  intros K. split.
  - apply stable_bind; [exact inner_trans|apply c_need_tx; [exact inner_refl|exact inner_trans|exact inner_cur]|intro; apply K].
  - intros e s _. unfold bind at 1. destruct (need_tx_eval sd e s) as [(t & s' & -> & H & _)| ->]; [|split; discriminate].
    apply K. intros _. exact H.
Qed.
Lemma calm_need sd h : calm sd h (need_tx sd).
Proof.
  split; [apply c_need_tx; [exact inner_refl|exact inner_trans|exact inner_cur]|].
  intros e s _. destruct (need_tx_eval sd e s) as [(t & s' & -> & H & _)| ->]; split; discriminate.
Qed.

Create HintDb calm.
#[export] Hint Resolve calm_put calm_call calm_cur calm_need : calm.
Ltac calm_step :=
  lazymatch goal with
  | |- forall _, _ => intro
  | |- calm _ _ (ret _) => apply calm_ret
  | |- calm _ _ (fail _) => apply calm_fail
  | |- calm _ _ get => apply calm_get
  | |- calm _ _ ask => apply calm_ask
  | |- calm _ _ (get_d _) => apply calm_get_d
  | |- calm _ _ input => apply calm_input
  | |- calm _ _ slice => apply calm_slice
  | |- calm _ _ (log _ _) => apply calm_log
  | |- calm _ _ (call _ _ _) => apply calm_call
  | |- calm _ _ (put_tx _ _) => apply calm_put
  | |- calm _ _ (the_tx _) => apply calm_the
  | |- calm _ _ (bind (need_tx _) _) => apply calm_need_bind
  | |- calm _ _ (need_tx _) => apply calm_need
  | |- calm _ _ (bind _ _) => apply calm_bind
  | |- calm _ _ (ignore _) => apply calm_ignore
  | |- calm _ _ (try _) => apply calm_try
  | |- calm _ _ (when _ _) => apply calm_when
  | |- calm _ _ (for_each _ _) => apply calm_for_each
  | |- calm _ _ (by_side ?sd _ _) => destruct sd; cbn [by_side]
  | |- calm _ _ (match ?x with _ => _ end) => destruct x eqn:?
  | |- calm _ _ (let _ := _ in _) => cbv zeta
  | |- _ => solve [auto 2 with calm | apply calm_weaken; auto 2 with calm]
  end.
Ltac calm_go := repeat calm_step.

Lemma calm_logs sd h l : calm sd h (logs l).
Proof. unfold logs. calm_go. Qed.
#[export] Hint Resolve calm_logs : calm.
Lemma calm_mod_tx sd f : calm sd true (mod_tx sd f).
Proof. unfold mod_tx. calm_go. Qed.
Lemma calm_mod_tx_log sd f : calm sd true (mod_tx_log sd f).
Proof. unfold mod_tx_log. calm_go. Qed.
#[export] Hint Resolve calm_mod_tx calm_mod_tx_log : calm.
Lemma calm_mod_txd sd f : calm sd true (mod_txd sd f).
Proof. unfold mod_txd. calm_go. Qed.
#[export] Hint Resolve calm_mod_txd : calm.
Lemma calm_set_progress sd f : calm sd true (set_progress sd f).
Proof. unfold set_progress. calm_go. Qed.
Lemma calm_check sd h r : calm sd h (check r).
Proof. unfold check. calm_go. Qed.
#[export] Hint Resolve calm_set_progress calm_check : calm.
Lemma calm_data_hook sd h hk i d : calm sd h (data_hook hk i d).
Proof. unfold data_hook. calm_go. Qed.
Lemma calm_tx_hook sd h hk i : calm sd h (tx_hook hk i).
Proof. unfold tx_hook. calm_go. Qed.
#[export] Hint Resolve calm_data_hook calm_tx_hook : calm.
Lemma calm_run_hook_body_data sd d : calm sd true (run_hook_body_data sd d).
Proof. unfold run_hook_body_data. calm_go. Qed.
Lemma calm_add_mlen sd d : calm sd true (add_mlen sd d).
Proof. unfold add_mlen. calm_go. Qed.
Lemma calm_add_elen sd d : calm sd true (add_elen sd d).
Proof. unfold add_elen. calm_go. Qed.
#[export] Hint Resolve calm_run_hook_body_data calm_add_mlen calm_add_elen : calm.
Lemma calm_decompressor_callback sd d : calm sd true (decompressor_callback sd d).
Proof. unfold decompressor_callback. calm_go. Qed.
#[export] Hint Resolve calm_decompressor_callback : calm.
Lemma calm_run_tree sd t : calm sd true (run_tree sd t).
Proof. induction t as [ok slow|d k IH]; cbn [run_tree]; calm_go. Qed.
#[export] Hint Resolve calm_run_tree : calm.
Lemma calm_body_data sd h d : calm sd h (body_data sd d).
Proof. unfold body_data. calm_go. Qed.
Lemma calm_parse_headers sd h d : calm sd h (parse_headers sd d).
Proof.
  unfold parse_headers. apply calm_need_bind. intro t.
  destruct (headers_total sd (t_hpc (x_dir sd t)) d) as (q & -> & _). calm_go.
Qed.
Lemma calm_init_decompressors sd h : calm sd h (init_decompressors sd).
Proof. unfold init_decompressors. calm_go. Qed.
Lemma calm_tx_parse_request_line : calm SReq true tx_parse_request_line.
Proof. unfold tx_parse_request_line. calm_go. Qed.
Lemma calm_finalize sd h i : calm sd h (finalize i).
Proof. unfold finalize. calm_go. Qed.
#[export] Hint Resolve calm_body_data calm_parse_headers calm_init_decompressors calm_tx_parse_request_line calm_finalize : calm.
Lemma calm_state_response_line h : calm SResp h state_response_line.
Proof. unfold state_response_line. calm_go. Qed.
Lemma calm_check_buffer_limit sd sd' h n : calm sd h (check_buffer_limit sd' n).
Proof. unfold check_buffer_limit. calm_go. Qed.
#[export] Hint Resolve calm_state_response_line calm_check_buffer_limit : calm.
Lemma calm_check_limit_if_buffered sd sd' h n : calm sd h (check_limit_if_buffered sd' n).
Proof. unfold check_limit_if_buffered. calm_go. Qed.
#[export] Hint Resolve calm_check_limit_if_buffered : calm.

(** * The part of the state a handler works on *)
(** Its direction and the other one (up to the receiver hook), its input (up to the callback position) and whether its
    transaction is known to be there. *)
Record core := mk_core { k_d : dir; k_p : pdata; k_o : dir; k_h : bool }.
Definition opp (sd : side) : side := match sd with SReq => SResp | SResp => SReq end.
Definition matches (sd : side) (s : st) (c : core) : Prop :=
  set_d_recv None (s_dir sd s) = k_d c /\ set_pd_cb 0 (s_input s) = k_p c /\
  set_d_recv None (s_dir (opp sd) s) = k_o c /\ (k_h c = true -> has sd s).
Definition wpc {A} (sd : side) (e : env) (m : M A) (c : core) (Q : res A -> core -> Prop) : Prop :=
  forall s, matches sd s c -> exists c', matches sd (snd (m e s)) c' /\ Q (fst (m e s)) c'.

Section Rules.
Variable sd : side.
Variable e : env.
Context {A : Type}.
Implicit Types (Q : res A -> core -> Prop) (c : core).

Lemma wpc_conseq (m : M A) c Q Q' : wpc sd e m c Q -> (forall r c', Q r c' -> Q' r c') -> wpc sd e m c Q'.
Proof. intros H K s Hs. destruct (H s Hs) as (c' & Hm & HQ). eauto. Qed.
Lemma wpc_bind B (m : M B) (k : B -> M A) c Q :
  wpc sd e m c (fun r c' => match r with ROk a => wpc sd e (k a) c' Q | RErr x => Q (RErr x) c'
                                       | RPanic => Q RPanic c' | RFuel => Q RFuel c' end) ->
  wpc sd e (bind m k) c Q.
Proof.
  intros H s Hs. destruct (H s Hs) as (c' & Hm & HQ). unfold bind. destruct (m e s) as [[a|x| |] s']; cbn [fst snd] in *.
  - apply HQ, Hm.
  - eauto.
  - eauto.
  - eauto.
Qed.
Lemma wpc_ret (a : A) c Q : Q (ROk a) c -> wpc sd e (ret a) c Q.
Proof. intros H s Hs. exists c. split; assumption. Qed.
Lemma wpc_fail x c Q : Q (RErr x) c -> wpc sd e (fail x) c Q.
Proof. intros H s Hs. exists c. split; assumption. Qed.
Lemma wpc_calm h (m : M A) c Q :
  calm sd h m -> (h = true -> k_h c = true) -> (forall r, nofault r -> Q r c) -> wpc sd e m c Q.
Proof.
  intros [S F] Hh HQ s (D & P & O & H). specialize (S e s). exists c. split; [|apply HQ, F; auto].
  destruct S as [S L]. repeat split.
  - rewrite <- D. destruct sd; [apply (f_equal s_req) in S|apply (f_equal s_resp) in S]; cbn in *; congruence.
  - rewrite <- P. apply (f_equal s_input) in S. cbn in S. congruence.
  - rewrite <- O. destruct sd; [apply (f_equal s_resp) in S|apply (f_equal s_req) in S]; cbn in *; congruence.
  - intro E. apply (inner_has e s); [split; [exact S|exact L]|]. auto.
Qed.
End Rules.

Section Rules2.
Variable sd : side.
Variable e : env.
Implicit Types (c : core).

Lemma wpc_try A (m : M A) c (Q : res (A + status) -> core -> Prop) :
  wpc sd e m c (fun r c' => match r with ROk a => Q (ROk (inl a)) c' | RErr x => Q (ROk (inr x)) c'
                                       | RPanic => Q RPanic c' | RFuel => Q RFuel c' end) ->
  wpc sd e (try m) c Q.
Proof.
  intros H s Hs. destruct (H s Hs) as (c' & Hm & HQ). unfold try. destruct (m e s) as [[a|x| |] s']; cbn [fst snd] in *; eauto.
Qed.
Lemma wpc_ignore A (m : M A) c (Q : res unit -> core -> Prop) :
  wpc sd e m c (fun r c' => match r with ROk _ | RErr _ => Q (ROk tt) c' | RPanic => Q RPanic c' | RFuel => Q RFuel c' end) ->
  wpc sd e (ignore m) c Q.
Proof.
  intros H s Hs. destruct (H s Hs) as (c' & Hm & HQ). unfold ignore. destruct (m e s) as [[a|x| |] s']; cbn [fst snd] in *; eauto.
Qed.
Lemma wpc_get c (Q : res st -> core -> Prop) : (forall s, matches sd s c -> Q (ROk s) c) -> wpc sd e get c Q.
Proof. intros H s Hs. exists c. split; [exact Hs|]. apply H, Hs. Qed.
Lemma wpc_ask c (Q : res env -> core -> Prop) : Q (ROk e) c -> wpc sd e ask c Q.
Proof. intros H s Hs. exists c. split; assumption. Qed.
Lemma dir_eta d : d = set_d_recv (d_recv d) (set_d_recv None d).
Proof. destruct d; reflexivity. Qed.
Lemma pdata_eta p : p = set_pd_cb (pd_cb p) (set_pd_cb 0 p).
Proof. destruct p; reflexivity. Qed.
Lemma wpc_get_d c (Q : res dir -> core -> Prop) : (forall v, Q (ROk (set_d_recv v (k_d c))) c) -> wpc sd e (get_d sd) c Q.
Proof.
  intros H s Hs. exists c. split; [exact Hs|]. cbn. rewrite (dir_eta (s_dir sd s)). destruct Hs as (-> & _). apply H.
Qed.
Lemma wpc_get_o c (Q : res dir -> core -> Prop) : (forall v, Q (ROk (set_d_recv v (k_o c))) c) -> wpc sd e (get_d (opp sd)) c Q.
Proof.
  intros H s Hs. exists c. split; [exact Hs|]. cbn. rewrite (dir_eta (s_dir (opp sd) s)). destruct Hs as (_ & _ & -> & _). apply H.
Qed.
Lemma wpc_input c (Q : res pdata -> core -> Prop) : (forall v, Q (ROk (set_pd_cb v (k_p c))) c) -> wpc sd e input c Q.
Proof.
  intros H s Hs. exists c. split; [exact Hs|]. cbn. rewrite (pdata_eta (s_input s)). destruct Hs as (_ & -> & _). apply H.
Qed.
Lemma wpc_slice c (Q : res bytes -> core -> Prop) : Q (ROk (pd_as_slice (k_p c))) c -> wpc sd e slice c Q.
Proof.
  intros H s Hs. exists c. split; [exact Hs|]. cbn.
  replace (pd_as_slice (s_input s)) with (pd_as_slice (k_p c)); [exact H|]. destruct Hs as (_ & <- & _). reflexivity.
Qed.
Lemma wpc_need c (Q : res tx -> core -> Prop) :
  (forall t, Q (ROk t) (mk_core (k_d c) (k_p c) (k_o c) true)) -> Q (RErr SError) c -> wpc sd e (need_tx sd) c Q.
Proof.
  intros H1 H2 s (D & P & O & H). destruct (need_tx_eval sd e s) as [(t & s' & -> & Hh & I & _)| ->]; cbn [fst snd].
  - exists (mk_core (k_d c) (k_p c) (k_o c) true). split; [|apply H1]. destruct I as [S _]. repeat split.
    + cbn [k_d]. rewrite <- D. destruct sd; [apply (f_equal s_req) in S|apply (f_equal s_resp) in S]; cbn in *; congruence.
    + cbn [k_p]. rewrite <- P. apply (f_equal s_input) in S. cbn in S. congruence.
    + cbn [k_o]. rewrite <- O. destruct sd; [apply (f_equal s_resp) in S|apply (f_equal s_req) in S]; cbn in *; congruence.
    + auto.
  - exists c. split; [repeat split; assumption|exact H2].
Qed.
Lemma wpc_the c (Q : res tx -> core -> Prop) : k_h c = true -> (forall t, Q (ROk t) c) -> wpc sd e (the_tx sd) c Q.
Proof.
  intros Hh H s Hs. destruct (the_tx_eval sd e s) as (t & -> & _); [apply Hs, Hh|]. exists c. split; [exact Hs|apply H].
Qed.
Lemma wpc_upd f c (Q : res unit -> core -> Prop) : (forall d, set_d_recv None (f d) = f (set_d_recv None d)) ->
  Q (ROk tt) (mk_core (f (k_d c)) (k_p c) (k_o c) (k_h c)) -> wpc sd e (upd_d sd f) c Q.
Proof.
  intros Hf H s (D & P & O & Hh). exists (mk_core (f (k_d c)) (k_p c) (k_o c) (k_h c)). split; [|exact H].
  repeat split; cbn [k_d k_p k_o k_h].
  - rewrite <- D, <- Hf. destruct sd; reflexivity.
  - rewrite <- P. destruct sd; reflexivity.
  - rewrite <- O. destruct sd; reflexivity.
  - intro E. specialize (Hh E). unfold has, live in *. destruct sd; exact Hh.
Qed.
Lemma wpc_updo f c (Q : res unit -> core -> Prop) : (forall d, set_d_recv None (f d) = f (set_d_recv None d)) ->
  Q (ROk tt) (mk_core (k_d c) (k_p c) (f (k_o c)) (k_h c)) -> wpc sd e (upd_d (opp sd) f) c Q.
Proof.
  intros Hf H s (D & P & O & Hh). exists (mk_core (k_d c) (k_p c) (f (k_o c)) (k_h c)). split; [|exact H].
  repeat split; cbn [k_d k_p k_o k_h].
  - rewrite <- D. destruct sd; reflexivity.
  - rewrite <- P. destruct sd; reflexivity.
  - rewrite <- O, <- Hf. destruct sd; reflexivity.
  - intro E. specialize (Hh E). unfold has, live in *. destruct sd; exact Hh.
Qed.
Lemma wpc_set_input p c (Q : res unit -> core -> Prop) :
  Q (ROk tt) (mk_core (set_d_consumed (pd_pos p) (k_d c)) (set_pd_cb 0 p) (k_o c) (k_h c)) -> wpc sd e (set_input sd p) c Q.
Proof.
  intros H s (D & P & O & Hh). eexists. split; [|exact H]. repeat split; cbn [k_d k_p k_o k_h].
  - rewrite <- D. destruct sd; reflexivity.
  - destruct sd; reflexivity.
  - rewrite <- O. destruct sd; reflexivity.
  - intro E. specialize (Hh E). unfold has, live in *. destruct sd; exact Hh.
Qed.
Definition move (x : N) (c : core) : core := mk_core (set_d_consumed x (k_d c)) (set_pd_pos x (k_p c)) (k_o c) (k_h c).
Lemma cb0 sd' s c : matches sd' s c -> set_pd_cb 0 (k_p c) = k_p c.
Proof. intros (_ & <- & _). reflexivity. Qed.
Lemma wpc_consume n c (Q : res unit -> core -> Prop) : Q (ROk tt) (move (pd_pos (k_p c) + n) c) -> wpc sd e (consume sd n) c Q.
Proof.
  intros H s Hs. pose proof (cb0 _ _ _ Hs) as Hcb.
  apply (wpc_bind sd e _ input (fun p => set_input sd (pd_consume n p)) c Q); [|exact Hs]. apply wpc_input. intro v. apply wpc_set_input.
  replace (mk_core _ _ _ _) with (move (pd_pos (k_p c) + n) c); [exact H|]. unfold move. f_equal. rewrite <- Hcb. reflexivity.
Qed.
Lemma wpc_unconsume n c (Q : res unit -> core -> Prop) :
  Q (ROk tt) (move (if n <? pd_pos (k_p c) then pd_pos (k_p c) - n else 0) c) -> wpc sd e (unconsume sd n) c Q.
Proof.
  intros H s Hs. pose proof (cb0 _ _ _ Hs) as Hcb.
  apply (wpc_bind sd e _ input (fun p => set_input sd (pd_unconsume n p)) c Q); [|exact Hs]. apply wpc_input. intro v. apply wpc_set_input.
  match goal with |- Q _ ?x => replace x with (move (if n <? pd_pos (k_p c) then pd_pos (k_p c) - n else 0) c); [exact H|] end.
  unfold move. f_equal. rewrite <- Hcb. reflexivity.
Qed.
Lemma wpc_take_buf c (Q : res bytes -> core -> Prop) :
  Q (ROk (d_buf (k_d c))) (mk_core (set_d_buf [] (k_d c)) (k_p c) (k_o c) (k_h c)) -> wpc sd e (take_buf sd) c Q.
Proof.
  intros H. unfold take_buf. apply wpc_bind, wpc_get_d. intro v. apply wpc_bind, wpc_upd; [reflexivity|]. apply wpc_ret. exact H.
Qed.
Lemma wpc_slice_to n c (Q : res bytes -> core -> Prop) :
  n <= blen (pd_as_slice (k_p c)) -> Q (ROk (firstn (N.to_nat n) (pd_as_slice (k_p c)))) c -> wpc sd e (slice_to n) c Q.
Proof.
  intros L H. unfold slice_to. apply wpc_bind, wpc_slice. destruct (n <=? _) eqn:E; [apply wpc_ret, H|lia].
Qed.
Definition bufsum (d : dir) : N := blen (d_buf d) + match d_header d with Some h => blen h | None => 0 end.
Lemma wpc_log lv m c (Q : res unit -> core -> Prop) : Q (ROk tt) c -> wpc sd e (log lv m) c Q.
Proof.
  intros H s Hs. exists c. split; [|exact H]. unfold log. cbn [snd]. destruct (_ <=? _); [|exact Hs].
  destruct Hs as (D & P & O & Hh). destruct sd; repeat split; assumption.
Qed.
Lemma wpc_check_buffer_limit n c (Q : res unit -> core -> Prop) :
  (n = 0 \/ bufsum (k_d c) + n <= c_field_limit (e_cfg e) -> Q (ROk tt) c) -> Q (RErr SError) c ->
  wpc sd e (check_buffer_limit sd n) c Q.
Proof.
  intros H1 H2. unfold check_buffer_limit. destruct (n =? 0) eqn:E0; [apply wpc_ret, H1; lia|].
  apply wpc_bind, wpc_get_d. intro v. apply wpc_bind, wpc_ask. cbv zeta. destruct (_ <? _) eqn:E.
  - apply wpc_bind, wpc_log, wpc_fail, H2.
  - apply wpc_ret, H1. right. unfold bufsum. cbn [set_d_recv d_buf d_header] in E. lia.
Qed.
Lemma wpc_check_limit_if_buffered n c (Q : res unit -> core -> Prop) :
  (forall b : bool, Q (ROk tt) c) -> Q (RErr SError) c -> wpc sd e (check_limit_if_buffered sd n) c Q.
Proof.
  intros H1 H2. unfold check_limit_if_buffered. apply wpc_bind, wpc_get_d. intro v. unfold when. destruct (negb _).
  - apply wpc_check_buffer_limit; [intros _; exact (H1 true)|exact H2].
  - apply wpc_ret, (H1 false).
Qed.
(** A change outside the core. *)
Lemma wpc_modify f c (Q : res unit -> core -> Prop) :
  (forall s, matches sd s c -> matches sd (f s) c) -> Q (ROk tt) c -> wpc sd e (modify f) c Q.
Proof. intros Hf H s Hs. exists c. split; [apply Hf, Hs|exact H]. Qed.
Definition lose (c : core) : core := mk_core (k_d c) (k_p c) (k_o c) false.
Lemma matches_lose s s' c :
  s_req s' = s_req s -> s_resp s' = s_resp s -> s_input s' = s_input s -> matches sd s c -> matches sd s' (lose c).
Proof.
  intros E1 E2 E3 (D & P & O & _). repeat split; cbn [lose k_d k_p k_o k_h]; try discriminate.
  - rewrite <- D. destruct sd; cbn; congruence.
  - congruence.
  - rewrite <- O. destruct sd; cbn; congruence.
Qed.
Lemma check_free_frame i s : let s' := snd (check_free i e s) in
  s_req s' = s_req s /\ s_resp s' = s_resp s /\ s_input s' = s_input s.
Proof.
  unfold check_free. cbn [snd]. destruct (c_auto_destroy _); [|auto]. destruct (tx_get _ _) as [t|]; [|auto].
  destruct (is_complete t); auto.
Qed.
Lemma wpc_request_next c (Q : res unit -> core -> Prop) : Q (ROk tt) (lose c) -> wpc sd e request_next c Q.
Proof.
  intros H s Hs. exists (lose c). unfold request_next, get, bind, when, modify, check_free.
  destruct (_ <? _); cbn [fst snd ret]; (split; [|exact H]); apply matches_lose with s; try exact Hs;
    (destruct (c_auto_destroy _); [|reflexivity]); (destruct (tx_get _ _) as [t|]; [|reflexivity]);
    destruct (is_complete t); reflexivity.
Qed.
Lemma wpc_response_next c (Q : res unit -> core -> Prop) : Q (ROk tt) (lose c) -> wpc sd e response_next c Q.
Proof.
  intros H s Hs. exists (lose c). unfold response_next, get, bind, when, modify, check_free.
  cbn [fst snd ret]; (split; [|exact H]); apply matches_lose with s; try exact Hs;
    (destruct (c_auto_destroy _); [|reflexivity]); (destruct (tx_get _ _) as [t|]; [|reflexivity]);
    destruct (is_complete t); reflexivity.
Qed.
(** The receivers only touch what the core leaves out. *)
Lemma wpc_receiver_send_data c (Q : res unit -> core -> Prop) : (forall r, nofault r -> Q r c) -> wpc sd e (receiver_send_data sd) c Q.
Proof.
  intros H. unfold receiver_send_data. apply wpc_bind, wpc_input. intro v.
  assert (K : set_pd_cb 0 (snd (pd_callback_data (set_pd_cb v (k_p c)))) = set_pd_cb 0 (k_p c)).
  { unfold pd_callback_data. destruct (pd_data _); [|reflexivity]. destruct (_ && _); reflexivity. }
  destruct (pd_callback_data _) as [d p']. cbn [snd] in K.
  intros s Hs. pose proof (cb0 _ _ _ Hs) as Hcb. revert s Hs. apply wpc_bind.
  intros s Hs. exists c. split; [|cbn [fst modify]].
  - destruct Hs as (D & P & O & Hh). destruct sd; repeat split; try assumption; cbn; congruence.
  - apply wpc_bind. apply wpc_need; [|apply H; split; discriminate]. intro t.
    match goal with |- wpc _ _ ?m _ _ => assert (C : calm sd false m) end.
    { calm_go. }
    intros s1 (D & P & O & Hh).
    apply (wpc_calm sd e false _ c Q C); [discriminate|exact H|].
    repeat split; try assumption. intros _. apply Hh. reflexivity.
Qed.
Lemma wpc_receiver_finalize_clear c (Q : res unit -> core -> Prop) : (forall r, nofault r -> Q r c) -> wpc sd e (receiver_finalize_clear sd) c Q.
Proof.
  intros H. unfold receiver_finalize_clear. apply wpc_bind, wpc_get_d. intro v.
  destruct (d_recv _); [|apply wpc_ret, H; split; discriminate].
  apply wpc_bind, wpc_try, wpc_receiver_send_data. intros r Hr.
  assert (K : forall rc : unit + status, wpc sd e (upd_d sd (set_d_recv None) ;; match rc with inl _ => ret tt | inr x => fail x end) c Q).
  { intro rc. intros s (D & P & O & Hh). exists c.
    assert (M : matches sd (set_s_dir sd (set_d_recv None (s_dir sd s)) s) c).
    { repeat split.
      - rewrite <- D. destruct sd; reflexivity.
      - rewrite <- P. destruct sd; reflexivity.
      - rewrite <- O. destruct sd; reflexivity.
      - intro E. specialize (Hh E). unfold has, live in *. destruct sd; exact Hh. }
    destruct rc; (split; [exact M|apply H; split; discriminate]). }
  destruct r as [a|x| |]; [exact (K (inl a))|exact (K (inr x))| |]; destruct Hr; congruence.
Qed.
End Rules2.
(** A change of state is noted; entering the headers takes the transaction. *)
Lemma wpc_handle_state_change sd e c (Q : res unit -> core -> Prop) :
  (sd = SReq -> d_state (k_d c) = StHeaders -> k_h c = true) ->
  Q (ROk tt) c ->
  (forall h, Q (ROk tt) (mk_core (set_d_prev (d_state (k_d c)) (k_d c)) (k_p c) (k_o c) h)) ->
  (forall x, Q (RErr x) c) ->
  wpc sd e (handle_state_change sd) c Q.
Proof.
  intros Hh H0 H1 H2. unfold handle_state_change. apply wpc_bind, wpc_get_d. intro v. cbn [set_d_recv d_prev d_state].
  destruct (pstate_eqb _ _); [apply wpc_ret, H0|].
  set (Qm := fun (r : res unit) (c' : core) => match r with ROk _ => exists h, c' = mk_core (k_d c) (k_p c) (k_o c) h
                                   | RErr _ => c' = c | _ => False end).
  apply wpc_bind, (wpc_conseq _ _ _ _ Qm); unfold Qm.
  - destruct (pstate_eqb _ StHeaders) eqn:E.
    + assert (L : forall c', (exists h, c' = mk_core (k_d c) (k_p c) (k_o c) h) -> forall t,
        wpc sd e (modify (fun s => set_s_input (set_pd_cb (pd_pos (s_input s)) (s_input s)) s) ;;
         match t_prog (x_dir sd t) with
         | PHeaders => upd_d sd (set_d_recv (Some (by_side sd HRequestHeaderData HResponseHeaderData)))
         | PTrailer => upd_d sd (set_d_recv (Some (by_side sd HRequestTrailerData HResponseTrailerData)))
         | _ => ret tt end) c' Qm).
      { intros c' [h ->] t. apply wpc_bind, wpc_modify.
        - intros s (D & P & O & K). destruct sd; repeat split; assumption.
        - assert (U : forall hk, wpc sd e (upd_d sd (set_d_recv (Some hk))) (mk_core (k_d c) (k_p c) (k_o c) h) Qm).
          { intros hk s (D & P & O & K). exists (mk_core (k_d c) (k_p c) (k_o c) h). split; [|exists h; reflexivity].
            cbn [k_d k_p k_o k_h] in *. repeat split; cbn [k_d k_p k_o k_h].
            - rewrite <- D. destruct sd; reflexivity.
            - rewrite <- P. destruct sd; reflexivity.
            - rewrite <- O. destruct sd; reflexivity.
            - intro Eh. specialize (K Eh). unfold has, live in *. destruct sd; exact K. }
          destruct (t_prog _); try apply U; apply wpc_ret; exists h; reflexivity. }
      assert (E' : d_state (k_d c) = StHeaders) by (destruct (d_state (k_d c)); discriminate || reflexivity).
      apply wpc_bind. destruct sd; cbn [by_side].
      * apply wpc_the; [apply Hh; [reflexivity|exact E']|]. intro t. apply L. exists (k_h c). destruct c; reflexivity.
      * apply wpc_need; [|reflexivity]. intro t. apply L. exists true. reflexivity.
    + apply wpc_ret. exists (k_h c). destruct c; reflexivity.
  - intros [[]|x| |] c' K; [|subst; apply H2|contradiction|contradiction]. destruct K as [h ->].
    apply wpc_upd; [reflexivity|]. apply H1.
Qed.
