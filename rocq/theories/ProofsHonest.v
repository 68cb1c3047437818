(** A callback that refuses ends the call with its answer. *)
From Verif Require Import Base ModelState ModelTx ModelConn SpecConn ProofsBase.

Definition refuses (x : status) : Prop := x = SStop \/ x = SError.
Definition heed (bs : bool) (h : hook) : bool := heeded h || (bs && body_hook h).
(** The raw data hooks, the only ones a receiver is set to. *)
Definition raw_hook (o : option hook) : bool :=
  match o with
  | None | Some HRequestHeaderData | Some HRequestTrailerData | Some HResponseHeaderData | Some HResponseTrailerData => true
  | _ => false
  end.
Definition recv_ok (s : st) : Prop := raw_hook (d_recv (s_req s)) = true /\ raw_hook (d_recv (s_resp s)) = true.
Definition silent (bs : bool) (e : env) : Prop := bs = true -> no_decompression e.

(** [trk bs Q m]: a refusal by a heeded hook during [m] is the last callback of [m], and [Q] holds of its result. *)
Definition trk (bs : bool) {A} (Q : res A -> status -> Prop) (m : M A) : Prop := forall e s, silent bs e -> recv_ok s ->
  recv_ok (snd (m e s)) /\
  exists new, s_trace (snd (m e s)) = new ++ s_trace s /\
    forall ev x, In (ev, x) new -> heed bs (ev_hook ev) = true -> refuses x -> Q (fst (m e s)) x /\ exists rest, new = (ev, x) :: rest.
Definition fails_with {A} (r : res A) (x : status) : Prop := r = RErr x.
Definition never {A} (_ : res A) (_ : status) : Prop := False.
Notation honest bs := (trk bs fails_with).
Notation mild bs := (trk bs never).
Lemma trk_quiet bs A (Q : res A -> status -> Prop) (m : M A) :
  (forall e s, recv_ok s -> recv_ok (snd (m e s)) /\ s_trace (snd (m e s)) = s_trace s) -> trk bs Q m.
Proof. intros H e s _ Hs. destruct (H e s Hs) as [H1 H2]. split; [exact H1|]. exists []. split; [exact H2|]. intros ev x []. Qed.
Lemma mild_trk bs A (Q : res A -> status -> Prop) (m : M A) : mild bs m -> trk bs Q m.
Proof.
  intros H e s S Hs. destruct (H e s S Hs) as (H1 & new & H2 & H3). split; [exact H1|]. exists new. split; [exact H2|].
  intros ev x I1 I2 I3. destruct (H3 ev x I1 I2 I3) as [[] _].
Qed.
Lemma trk_bind bs A B (m : M A) (k : A -> M B) (Q : res B -> status -> Prop) :
  (forall x, Q (RErr x) x) -> honest bs m -> (forall a, trk bs Q (k a)) -> trk bs Q (bind m k).
Proof.
  intros HQ Hm Hk e s S Hs. unfold bind. destruct (Hm e s S Hs) as (H1 & new & H2 & H3).
  destruct (m e s) as [[a|y| |] t] eqn:E; cbn [fst snd] in *.
  2-4: split; [exact H1|]; exists new; split; [exact H2|]; intros ev x I1 I2 I3; destruct (H3 ev x I1 I2 I3) as [F R]; split; [|exact R];
    unfold fails_with in F; try discriminate; injection F as ->; apply HQ.
  destruct (Hk a e t S H1) as (K1 & new' & K2 & K3). split; [exact K1|]. exists (new' ++ new). split; [rewrite K2, H2; apply app_assoc|].
  intros ev x I1 I2 I3. apply in_app_or in I1 as [I1|I1].
  - destruct (K3 ev x I1 I2 I3) as [F (rest & ->)]. split; [exact F|]. exists (rest ++ new). reflexivity.
  - destruct (H3 ev x I1 I2 I3) as [F _]. discriminate F.
Qed.
Lemma honest_bind bs A B (m : M A) (k : A -> M B) : honest bs m -> (forall a, honest bs (k a)) -> honest bs (bind m k).
Proof. apply trk_bind. reflexivity. Qed.
Lemma mild_bind bs A B (m : M A) (k : A -> M B) : mild bs m -> (forall a, mild bs (k a)) -> mild bs (bind m k).
Proof.
  intros Hm Hk e s S Hs. unfold bind. destruct (Hm e s S Hs) as (H1 & new & H2 & H3).
  destruct (m e s) as [[a|y| |] t] eqn:E; cbn [fst snd] in *.
  2-4: split; [exact H1|]; exists new; split; [exact H2|]; intros ev x I1 I2 I3; destruct (H3 ev x I1 I2 I3) as [[] _].
  destruct (Hk a e t S H1) as (K1 & new' & K2 & K3). split; [exact K1|]. exists (new' ++ new). split; [rewrite K2, H2; apply app_assoc|].
  intros ev x I1 I2 I3. apply in_app_or in I1 as [I1|I1].
  - destruct (K3 ev x I1 I2 I3) as [[] _].
  - destruct (H3 ev x I1 I2 I3) as [[] _].
Qed.
Lemma mild_ignore bs A (m : M A) : mild bs m -> mild bs (ignore m).
Proof. intros Hm e s S Hs. unfold ignore. destruct (Hm e s S Hs) as (H1 & new & H2 & H3). destruct (m e s) as [[a|y| |] t]; (split; [exact H1|]; exists new; split; [exact H2|]; intros ev x I1 I2 I3; destruct (H3 ev x I1 I2 I3) as [[] _]). Qed.
Lemma mild_try bs A (m : M A) : mild bs m -> mild bs (try m).
Proof. intros Hm e s S Hs. unfold try. destruct (Hm e s S Hs) as (H1 & new & H2 & H3). destruct (m e s) as [[a|y| |] t]; (split; [exact H1|]; exists new; split; [exact H2|]; intros ev x I1 I2 I3; destruct (H3 ev x I1 I2 I3) as [[] _]). Qed.
Lemma honest_for_each bs A (f : A -> M unit) l : (forall a, honest bs (f a)) -> honest bs (for_each f l).
Proof. intros H. induction l as [|a l IH]; cbn [for_each]; [now apply trk_quiet|]. apply honest_bind; [apply H|intros _; exact IH]. Qed.
Lemma mild_for_each bs A (f : A -> M unit) l : (forall a, mild bs (f a)) -> mild bs (for_each f l).
Proof. intros H. induction l as [|a l IH]; cbn [for_each]; [now apply trk_quiet|]. apply mild_bind; [apply H|intros _; exact IH]. Qed.
(** An error that is caught and raised again. *)
Definition quiet_fail {A} (x : status) (m : M A) : Prop := forall e s, recv_ok s ->
  fst (m e s) = RErr x /\ s_trace (snd (m e s)) = s_trace s /\ recv_ok (snd (m e s)).
Lemma honest_reraise bs A B (m : M A) (k : A + status -> M B) :
  honest bs m -> (forall a, honest bs (k (inl a))) -> (forall x, quiet_fail x (k (inr x))) -> honest bs (bind (try m) k).
Proof.
  intros Hm Hk Hq e s S Hs. unfold bind, try. destruct (Hm e s S Hs) as (H1 & new & H2 & H3).
  destruct (m e s) as [[a|y| |] t] eqn:E; cbn [fst snd] in *.
  3-4: split; [exact H1|]; exists new; split; [exact H2|]; intros ev x I1 I2 I3; destruct (H3 ev x I1 I2 I3) as [F R]; discriminate F.
  - destruct (Hk a e t S H1) as (K1 & new' & K2 & K3). split; [exact K1|]. exists (new' ++ new). split; [rewrite K2, H2; apply app_assoc|].
    intros ev x I1 I2 I3. apply in_app_or in I1 as [I1|I1].
    + destruct (K3 ev x I1 I2 I3) as [F (rest & ->)]. split; [exact F|]. exists (rest ++ new). reflexivity.
    + destruct (H3 ev x I1 I2 I3) as [F _]. discriminate F.
  - destruct (Hq y e t H1) as (K1 & K2 & K3). split; [exact K3|]. exists new. split; [now rewrite K2|].
    intros ev x I1 I2 I3. destruct (H3 ev x I1 I2 I3) as [F R]. split; [|exact R]. unfold fails_with in *. congruence.
Qed.

(** The primitives. *)
Ltac quietly := apply trk_quiet; intros e s Hs; split; [exact Hs|reflexivity].
Lemma q_ret bs A Q (a : A) : trk bs Q (ret a). Proof. quietly. Qed.
Lemma q_fail bs A Q x : trk bs Q (@fail A x). Proof. quietly. Qed.
Lemma q_panic bs A Q : trk bs Q (@panic A). Proof. quietly. Qed.
Lemma q_out_of_fuel bs A Q : trk bs Q (@out_of_fuel A). Proof. quietly. Qed.
Lemma q_get bs Q : trk bs Q get. Proof. quietly. Qed.
Lemma q_ask bs Q : trk bs Q ask. Proof. quietly. Qed.
Lemma q_get_d bs Q sd : trk bs Q (get_d sd). Proof. quietly. Qed.
Lemma q_input bs Q : trk bs Q input. Proof. quietly. Qed.
Lemma q_slice bs Q : trk bs Q slice. Proof. quietly. Qed.
Lemma q_modify bs Q f : (forall s, s_trace (f s) = s_trace s) -> (forall s, recv_ok s -> recv_ok (f s)) -> trk bs Q (modify f).
Proof. intros H1 H2. apply trk_quiet. intros e s Hs. split; [now apply H2|apply H1]. Qed.
Definition keeps_recv (f : dir -> dir) : Prop := forall d, d_recv (f d) = d_recv d.
Lemma q_upd_d bs Q sd f : keeps_recv f -> trk bs Q (upd_d sd f).
Proof. intros H. apply q_modify; intro s; [now destruct sd|]. intros [H1 H2]. destruct sd; split; cbn; rewrite ?H; assumption. Qed.
Lemma q_upd_recv bs Q sd o : raw_hook o = true -> trk bs Q (upd_d sd (set_d_recv o)).
Proof. intros H. apply q_modify; intro s; [now destruct sd|]. intros [H1 H2]. destruct sd; split; assumption. Qed.
Lemma q_log bs Q lv c : trk bs Q (log lv c).
Proof. apply trk_quiet. intros e s Hs. unfold log. cbn [snd]. destruct (_ <=? _); (split; [exact Hs|reflexivity]). Qed.
Lemma q_cur_tx bs Q sd : trk bs Q (cur_tx sd).
Proof. apply trk_quiet. intros e s Hs. unfold cur_tx. destruct tx_get; [now split|]. destruct (_ <=? _); (split; [exact Hs|reflexivity]). Qed.
Lemma q_check_free bs Q i : trk bs Q (check_free i).
Proof.
  apply trk_quiet. intros e s Hs. unfold check_free. cbn [snd]. destruct (c_auto_destroy _); [|now split].
  destruct tx_get as [t|]; [|now split]. destruct (is_complete t); (split; [exact Hs|reflexivity]).
Qed.
Lemma q_data_hook_mild bs h i d : heed bs h = false -> mild bs (data_hook h i d).
Proof.
  intros Hh e s S Hs. unfold data_hook, call, bind.
  set (r := e_cb e s (mk_ev h i d)). set (s1 := set_s_trace _ s).
  assert (E : snd (check r e s1) = s1) by now destruct r. rewrite E. split; [exact Hs|].
  exists [(mk_ev h i d, r)]. split; [reflexivity|]. intros ev x [[= <- <-]|[]] I2. cbn in I2. congruence.
Qed.
Lemma q_data_hook bs h i d : honest bs (data_hook h i d).
Proof.
  intros e s S Hs. unfold data_hook, call, bind.
  set (r := e_cb e s (mk_ev h i d)). set (s1 := set_s_trace _ s).
  assert (E : snd (check r e s1) = s1) by now destruct r. rewrite E. split; [exact Hs|].
  exists [(mk_ev h i d, r)]. split; [reflexivity|]. intros ev x [[= <- <-]|[]] I2 I3. split; [|now exists []].
  destruct I3 as [-> | ->]; reflexivity.
Qed.
Lemma q_param bs i n v : honest bs (let* r := call HParam i (PlParam n v) in match r with SOk => ret tt | _ => fail r end).
Proof.
  intros e s S Hs. unfold call, bind.
  set (r := e_cb e s _). set (s1 := set_s_trace _ s). set (m := match r with SOk => _ | _ => _ end).
  assert (E : snd (m e s1) = s1) by (unfold m; now destruct r). rewrite E. split; [exact Hs|].
  exists [(mk_ev HParam i (PlParam n v), r)]. split; [reflexivity|]. intros ev x [[= <- <-]|[]] I2 I3. split; [|now exists []].
  unfold m. destruct I3 as [-> | ->]; reflexivity.
Qed.
Lemma q_tx_hook bs h i : honest bs (tx_hook h i).
Proof. apply honest_bind; [apply q_get|]. intro s. destruct tx_get; [apply q_data_hook|apply q_ret]. Qed.
Lemma q_tx_hook_mild bs h i : heed bs h = false -> mild bs (tx_hook h i).
Proof. intro H. apply mild_bind; [apply q_get|]. intro s. destruct tx_get; [now apply q_data_hook_mild|apply q_ret]. Qed.

Create HintDb hon.
#[export] Hint Resolve q_get q_ask q_get_d q_input q_slice q_log q_cur_tx q_check_free q_data_hook q_tx_hook q_param : hon.
Ltac hon_step :=
  lazymatch goal with
  | |- forall _, _ => intro
  | |- trk _ _ (ret _) => apply q_ret
  | |- trk _ _ (fail _) => apply q_fail
  | |- trk _ _ panic => apply q_panic
  | |- trk _ _ out_of_fuel => apply q_out_of_fuel
  | |- trk _ _ (bind (call HParam _ (PlParam _ _)) _) => apply q_param
  | |- trk _ fails_with (bind (try _) _) => apply honest_reraise; [| |intros ? ? ? ?; cbv beta iota; try (split; [reflexivity|split; [reflexivity|assumption]])]
  | |- trk _ fails_with (bind _ _) => apply honest_bind
  | |- trk _ never (bind _ _) => apply mild_bind
  | |- trk _ fails_with (ignore _) => apply mild_trk
  | |- trk _ never (ignore _) => apply mild_ignore
  | |- trk _ never (try _) => apply mild_try
  | |- trk _ _ (when ?b _) => destruct b; cbn [when]
  | |- trk _ _ (for_each _ ?l) => first [apply honest_for_each | apply mild_for_each]
  | |- trk _ _ (modify _) => apply q_modify; [reflexivity|intros ? ?; assumption]
  | |- trk _ _ (upd_d _ (set_d_recv _)) => apply q_upd_recv; reflexivity
  | |- trk _ _ (upd_d _ _) => apply q_upd_d; intro; reflexivity
  | |- trk _ _ (by_side ?sd _ _) => destruct sd; cbn [by_side]
  | |- trk _ _ (match ?x with _ => _ end) => destruct x
  | |- trk _ _ (let _ := _ in _) => cbv zeta
  | |- _ => solve [auto 2 with hon]
  end.
Ltac hon_go := repeat hon_step.

Lemma q_logs bs Q l : trk bs Q (logs l).
Proof.
  apply trk_quiet. unfold logs. induction l as [|m l IH]; intros e s Hs; [now split|]. cbn [for_each]. unfold bind.
  destruct (log (lg_level m) (lg_code m) e s) as [r t] eqn:E. unfold log in E. injection E as <- <-.
  assert (T : recv_ok (if lg_level m <=? c_log_level (e_cfg e) then set_s_logs (mk_log (lg_level m) (lg_code m) :: s_logs s) s else s)) by now destruct (_ <=? _).
  destruct (IH e _ T) as [A B]. split; [exact A|]. rewrite B. now destruct (_ <=? _).
Qed.
Lemma q_put_tx bs Q i t : trk bs Q (put_tx i t). Proof. unfold put_tx. hon_go. Qed.
#[export] Hint Resolve q_logs q_put_tx : hon.
Lemma q_need_tx bs sd : mild bs (need_tx sd). Proof. unfold need_tx. hon_go. Qed.
Lemma q_the_tx bs sd : mild bs (the_tx sd). Proof. unfold the_tx. hon_go. Qed.
Ltac both := match goal with H : trk _ never ?m |- trk _ ?Q ?m => apply mild_trk, H end.
#[export] Hint Resolve q_need_tx q_the_tx : hon.
#[export] Hint Extern 1 (trk _ fails_with _) => (apply mild_trk; solve [auto 2 with hon]) : hon.
Lemma q_mod_tx bs sd f : mild bs (mod_tx sd f). Proof. unfold mod_tx. hon_go. Qed.
Lemma q_mod_tx_log bs sd f : mild bs (mod_tx_log sd f). Proof. unfold mod_tx_log. hon_go. Qed.
#[export] Hint Resolve q_mod_tx q_mod_tx_log : hon.
Lemma q_mod_txd bs sd f : mild bs (mod_txd sd f). Proof. apply q_mod_tx. Qed.
Lemma q_set_state bs sd x : mild bs (set_state sd x). Proof. unfold set_state. hon_go. Qed.
Lemma q_set_status bs sd x : mild bs (set_status sd x). Proof. unfold set_status. hon_go. Qed.
#[export] Hint Resolve q_mod_txd q_set_state q_set_status : hon.
Lemma q_set_progress bs sd p : mild bs (set_progress sd p). Proof. unfold set_progress. hon_go. Qed.
Lemma q_set_input bs sd p : mild bs (set_input sd p). Proof. unfold set_input. hon_go. Qed.
#[export] Hint Resolve q_set_progress q_set_input : hon.
Lemma q_consume bs sd n : mild bs (consume sd n). Proof. unfold consume. hon_go. Qed.
Lemma q_unconsume bs sd n : mild bs (unconsume sd n). Proof. unfold unconsume. hon_go. Qed.
Lemma q_slice_to bs n : mild bs (slice_to n). Proof. unfold slice_to. hon_go. Qed.
Lemma q_request_next bs : mild bs request_next. Proof. unfold request_next. hon_go. Qed.
Lemma q_response_next bs : mild bs response_next. Proof. unfold response_next. hon_go. Qed.
#[export] Hint Resolve q_consume q_unconsume q_slice_to q_request_next q_response_next : hon.
Lemma q_receiver_send_data bs sd : mild bs (receiver_send_data sd).
Proof.
  unfold receiver_send_data. apply mild_bind; [hon_go|]. intro p. destruct (pd_callback_data p) as [d p'].
  apply mild_bind; [hon_go|]. intros _. apply mild_bind; [hon_go|]. intros _.
  intros e s S Hs. unfold bind, get. destruct (d_recv (s_dir sd s)) as [h|] eqn:E; [|now apply (q_ret bs unit never tt)].
  apply q_data_hook_mild; [|assumption|assumption].
  assert (R : raw_hook (Some h) = true) by (rewrite <- E; destruct sd; apply Hs).
  destruct bs, h; try reflexivity; discriminate R.
Qed.
#[export] Hint Resolve q_receiver_send_data : hon.
Lemma q_receiver_finalize_clear bs sd : honest bs (receiver_finalize_clear sd).
Proof.
  unfold receiver_finalize_clear. apply honest_bind; [hon_go|]. intro d. destruct (d_recv d); [|hon_go].
  apply honest_reraise; [hon_go|hon_go|]. intros x e s [H1 H2]. unfold bind, upd_d, modify, fail. cbn [fst snd]. destruct sd; repeat split; assumption || reflexivity.
Qed.
Lemma q_handle_state_change bs sd : mild bs (handle_state_change sd). Proof. unfold handle_state_change. destruct sd; hon_go. Qed.
Lemma q_check_buffer_limit bs sd n : mild bs (check_buffer_limit sd n). Proof. unfold check_buffer_limit. hon_go. Qed.
#[export] Hint Resolve q_receiver_finalize_clear q_handle_state_change q_check_buffer_limit : hon.
Lemma q_absent_lf bs sd : mild bs (absent_lf sd). Proof. unfold absent_lf. hon_go. Qed.
Lemma q_take_buf bs sd : mild bs (take_buf sd). Proof. unfold take_buf. hon_go. Qed.
Lemma q_check_limit_if_buffered bs sd n : mild bs (check_limit_if_buffered sd n). Proof. unfold check_limit_if_buffered. hon_go. Qed.
Lemma q_run_hook_body_data bs sd d : honest bs (run_hook_body_data sd d).
Proof. unfold run_hook_body_data. destruct sd; cbn [by_side]; hon_go. Qed.
Lemma q_run_hook_body_data_mild sd d : mild false (run_hook_body_data sd d).
Proof.
  assert (D : forall h i, body_hook h = true -> mild false (data_hook h i d)).
  { intros h i H. apply q_data_hook_mild. destruct h; reflexivity || discriminate H. }
  unfold run_hook_body_data. destruct sd; cbn [by_side]; hon_go; apply D; reflexivity.
Qed.
Lemma q_add_mlen bs sd n : mild bs (add_mlen sd n). Proof. unfold add_mlen. hon_go. Qed.
Lemma q_add_elen bs sd n : mild bs (add_elen sd n). Proof. unfold add_elen. hon_go. Qed.
#[export] Hint Resolve q_absent_lf q_take_buf q_check_limit_if_buffered q_run_hook_body_data q_run_hook_body_data_mild q_add_mlen q_add_elen : hon.
Lemma q_decompressor_callback sd d : mild false (decompressor_callback sd d). Proof. unfold decompressor_callback. hon_go. Qed.
#[export] Hint Resolve q_decompressor_callback : hon.
Lemma q_run_tree sd t : mild false (run_tree sd t).
Proof. induction t as [ok slow|d k IH]; cbn [run_tree]; hon_go. Qed.
(** The decompressors: with body hooks heeded they are silent. *)
Lemma q_codec bs sd dc b : mild bs (let* e := ask in let* s := get in run_tree sd (e_codec e s dc b)).
Proof.
  intros e s S Hs. unfold bind, ask, get. destruct bs.
  - destruct (S eq_refl s dc b) as (ok & slow & ->). now apply (q_ret true _ never (ok, slow)).
  - now apply q_run_tree.
Qed.
Lemma q_body_data bs sd d : honest bs (body_data sd d).
Proof.
  unfold body_data. hon_step; [hon_go|]. intros _. hon_step; [hon_go|]. intros _. hon_step; [hon_go|]. intro t.
  assert (C : forall dc b (k : bool * bool -> M unit), (forall x, honest bs (k x)) ->
    honest bs (let* e := ask in let* s := get in let* x := run_tree sd (e_codec e s dc b) in k x)).
  { intros dc b k Hk. change (honest bs (fun e s => (let* x := (let* e := ask in let* s := get in run_tree sd (e_codec e s dc b)) in k x) e s)).
    apply honest_bind; [|exact Hk]. apply mild_trk, q_codec. }
  assert (D : forall dc b, honest bs (let* e := ask in let* s := get in ignore (run_tree sd (e_codec e s dc b)))).
  { intros dc b. change (honest bs (fun e s => ignore (let* e := ask in let* s := get in run_tree sd (e_codec e s dc b)) e s)).
    apply mild_trk, mild_ignore, q_codec. }
  destruct (t_cep (x_dir sd t)).
  1: { hon_step; [hon_go|]. intros _. destruct sd; [|hon_go]. apply honest_reraise; [hon_go|hon_go|]. intros x e s Hs. unfold bind, log, fail.
       cbn [fst snd]. split; [reflexivity|]. destruct (_ <=? _); split; assumption || reflexivity. }
  all: repeat first [apply D | apply C | hon_step].
Qed.
Lemma q_body_data_mild sd d : mild false (body_data sd d).
Proof.
  unfold body_data. hon_step; [hon_go|]. intros _. hon_step; [hon_go|]. intros _. hon_step; [hon_go|]. intro t.
  assert (T : forall t, mild false (run_tree sd t)) by apply q_run_tree.
  hon_go; apply T.
Qed.
Lemma q_body_end_mild bs : mild bs (body_data SResp None).
Proof.
  destruct bs; [|apply q_body_data_mild]. unfold body_data. hon_step; [hon_go|]. intros _. hon_step; [hon_go|]. intros _. hon_step; [hon_go|]. intro t.
  assert (D : forall dc b, mild true (let* e := ask in let* s := get in ignore (run_tree SResp (e_codec e s dc b)))).
  { intros dc b. change (mild true (fun e s => ignore (let* e := ask in let* s := get in run_tree SResp (e_codec e s dc b)) e s)).
    apply mild_ignore, q_codec. }
  assert (R : mild true (run_hook_body_data SResp PlNone)) by quietly.
  repeat first [apply D | hon_step].
Qed.
#[export] Hint Resolve q_body_data q_body_end_mild : hon.
Lemma q_parse_headers bs sd d : mild bs (parse_headers sd d). Proof. unfold parse_headers. hon_go. Qed.
Lemma q_init_decompressors bs sd : mild bs (init_decompressors sd). Proof. unfold init_decompressors. hon_go. Qed.
Lemma q_finalize bs i : honest bs (finalize i). Proof. unfold finalize. hon_go. Qed.
#[export] Hint Resolve q_parse_headers q_init_decompressors q_finalize : hon.
Lemma q_state_request_start bs : mild bs state_request_start.
Proof. assert (H : forall i, mild bs (tx_hook HRequestStart i)) by (intro; apply q_tx_hook_mild; now destruct bs). unfold state_request_start. hon_go. Qed.
Lemma q_state_request_headers bs : honest bs state_request_headers. Proof. unfold state_request_headers. hon_go. Qed.
Lemma q_tx_parse_request_line bs : honest bs tx_parse_request_line.
Proof.
  unfold tx_parse_request_line. hon_go.
Qed.
#[export] Hint Resolve q_state_request_start q_state_request_headers q_tx_parse_request_line : hon.
Lemma q_state_request_line bs : honest bs state_request_line. Proof. unfold state_request_line. hon_go. Qed.
Lemma q_state_request_complete bs : honest bs state_request_complete. Proof. unfold state_request_complete. hon_go. Qed.
Lemma q_state_response_start bs : honest bs state_response_start. Proof. unfold state_response_start. hon_go. Qed.
Lemma q_state_response_headers bs : honest bs state_response_headers. Proof. unfold state_response_headers. hon_go. Qed.
Lemma q_state_response_line bs : honest bs state_response_line. Proof. unfold state_response_line. hon_go. Qed.
Lemma q_request_parser_check_waiting bs : honest bs request_parser_check_waiting. Proof. unfold request_parser_check_waiting. hon_go. Qed.
#[export] Hint Resolve q_state_request_line q_state_request_complete q_state_response_start q_state_response_headers q_state_response_line q_request_parser_check_waiting : hon.
Lemma q_state_response_complete bs : honest bs state_response_complete. Proof. unfold state_response_complete. hon_go. Qed.
#[export] Hint Resolve q_state_response_complete : hon.
Lemma q_request_chunked_length_loop bs n : forall d, honest bs (request_chunked_length_loop n d).
Proof. induction n as [|n IH]; intro d; cbn [request_chunked_length_loop]; hon_go. Qed.
Lemma q_response_chunked_length_loop bs n : forall d, honest bs (response_chunked_length_loop n d).
Proof. induction n as [|n IH]; intro d; cbn [response_chunked_length_loop]; hon_go. Qed.
#[export] Hint Resolve q_request_chunked_length_loop q_response_chunked_length_loop : hon.
Lemma q_body_chunked_data bs sd : honest bs (body_chunked_data sd). Proof. unfold body_chunked_data. hon_go. Qed.
Lemma q_request_finalize_work bs w : honest bs (request_finalize_work w).
Proof. unfold request_finalize_work, request_finalize_line. hon_go. Qed.
Lemma q_request_line_complete bs l : honest bs (request_line_complete l). Proof. unfold request_line_complete. hon_go. Qed.
#[export] Hint Resolve q_body_chunked_data q_request_finalize_work q_request_line_complete : hon.
Lemma q_handle_request_state bs : honest bs handle_request_state.
Proof.
  unfold handle_request_state, request_idle, request_ignore_data_after_http_0_9, request_line, request_protocol, request_headers,
    request_connect_wait_response, request_connect_check, request_connect_probe_data, request_body_determine, request_body_chunked_length,
    request_body_chunked_data_end, request_body_identity, request_finalize. hon_go.
Qed.
Lemma q_http_ahead bs d : mild bs (http_ahead d). Proof. unfold http_ahead. hon_go. Qed.
#[export] Hint Resolve q_handle_request_state q_http_ahead : hon.
Lemma q_response_body_framing bs a b : honest bs (response_body_framing a b). Proof. unfold response_body_framing. hon_go. Qed.
#[export] Hint Resolve q_response_body_framing : hon.
Lemma q_response_body_presence bs a b : honest bs (response_body_presence a b). Proof. unfold response_body_presence. hon_go. Qed.
Lemma q_resume_requests bs : mild bs resume_requests. Proof. unfold resume_requests. hon_go. Qed.
#[export] Hint Resolve q_response_body_presence q_resume_requests : hon.
Lemma q_response_body_determine bs : honest bs response_body_determine. Proof. unfold response_body_determine. hon_go. Qed.
Lemma q_response_line_complete bs l : honest bs (response_line_complete l). Proof. unfold response_line_complete. hon_go. Qed.
Lemma q_response_trailer_done bs i : honest bs (response_trailer_done i). Proof. unfold response_trailer_done. hon_go. Qed.
Lemma q_response_finalize_work bs w : honest bs (response_finalize_work w). Proof. unfold response_finalize_work. hon_go. Qed.
#[export] Hint Resolve q_response_body_determine q_response_line_complete q_response_trailer_done q_response_finalize_work : hon.
Lemma q_handle_response_state bs : honest bs handle_response_state.
Proof.
  unfold handle_response_state, response_idle, response_line, response_headers, response_body_chunked_length, response_body_chunked_data_end,
    response_finalize, response_body_identity_stream_close, response_body_identity_cl_known. hon_go.
Qed.
#[export] Hint Resolve q_handle_response_state : hon.
Lemma q_handle_state bs sd : honest bs (handle_state sd). Proof. unfold handle_state. hon_go. Qed.

(** * From the handlers to the calls *)
Definition answer (x : status) : sstate := match x with SStop => SsStop | _ => SsError end.
Definition ends_step (r : res (option sstate)) (x : status) : Prop := r = ROk (Some (answer x)).
Definition ends_call (r : res sstate) (x : status) : Prop := r = ROk (answer x).
Lemma q_after_step bs Q sd rc : (forall x, rc = inr x -> ~ refuses x) -> trk bs Q (after_step sd rc).
Proof. intro H. apply mild_trk. unfold after_step. hon_go. Qed.
Lemma trk_bind_mild bs A B (m : M A) (k : A -> M B) (Q : res B -> status -> Prop) :
  mild bs m -> (forall a, trk bs Q (k a)) -> trk bs Q (bind m k).
Proof.
  intros Hm Hk e s S Hs. unfold bind. destruct (Hm e s S Hs) as (H1 & new & H2 & H3).
  destruct (m e s) as [[a|y| |] t] eqn:E; cbn [fst snd] in *.
  2-4: split; [exact H1|]; exists new; split; [exact H2|]; intros ev x I1 I2 I3; destruct (H3 ev x I1 I2 I3) as [[] _].
  destruct (Hk a e t S H1) as (K1 & new' & K2 & K3). split; [exact K1|]. exists (new' ++ new). split; [rewrite K2, H2; apply app_assoc|].
  intros ev x I1 I2 I3. apply in_app_or in I1 as [I1|I1].
  - destruct (K3 ev x I1 I2 I3) as [F (rest & ->)]. split; [exact F|]. exists (rest ++ new). reflexivity.
  - destruct (H3 ev x I1 I2 I3) as [[] _].
Qed.
Lemma q_step bs sd : trk bs ends_step (step sd).
Proof.
  unfold step. apply trk_bind_mild; [hon_go|]. intro p. apply trk_bind_mild; [hon_go|]. intro d.
  destruct (_ && _); [apply mild_trk; hon_go|].
  intros e s S Hs. unfold bind, try. destruct (q_handle_state bs sd e s S Hs) as (H1 & new & H2 & H3).
  destruct (handle_state sd e s) as [[a|y| |] t] eqn:E; cbn [fst snd] in *.
  3-4: split; [exact H1|]; exists new; split; [exact H2|]; intros ev x I1 I2 I3; destruct (H3 ev x I1 I2 I3) as [F R]; discriminate F.
  - set (k := (let* d0 := get_d sd in if sstate_eqb (d_status d0) SsTunnel then ret (Some SsTunnel) else
       let* rc := try (handle_state_change sd) in after_step sd rc)).
    assert (K : mild bs k).
    { unfold k. apply mild_bind; [hon_go|]. intro d0. destruct (sstate_eqb _ _); [hon_go|]. apply mild_bind; [hon_go|]. intro rc. unfold after_step. hon_go. }
    destruct (K e t S H1) as (K1 & new' & K2 & K3). unfold k, bind, try in K1, K2, K3. split; [exact K1|]. exists (new' ++ new). split; [rewrite K2, H2; apply app_assoc|].
    intros ev x I1 I2 I3. apply in_app_or in I1 as [I1|I1]; [destruct (K3 ev x I1 I2 I3) as [[] _]|destruct (H3 ev x I1 I2 I3) as [F _]; discriminate F].
  - assert (W : mild bs (after_step sd (inr y))) by (unfold after_step; hon_go).
    destruct (W e t S H1) as (K1 & new' & K2 & K3). split; [exact K1|]. exists (new' ++ new). split; [rewrite K2, H2; apply app_assoc|].
    intros ev x I1 I2 I3. apply in_app_or in I1 as [I1|I1]; [destruct (K3 ev x I1 I2 I3) as [[] _]|].
    destruct (H3 ev x I1 I2 I3) as [F (rest & ->)]. injection F as ->.
    assert (N' : new' = []).
    { destruct I3 as [-> | ->]; cbn [after_step] in K2; unfold bind, set_status, upd_d, modify, ret in K2; cbn [snd] in K2;
        assert (T : s_trace t = new' ++ s_trace t) by (rewrite <- K2; now destruct sd);
        apply (f_equal (@length _)) in T; rewrite app_length in T; destruct new'; [reflexivity|cbn in T; lia|reflexivity|cbn in T; lia]. }
    subst new'. split; [|now exists rest]. destruct I3 as [-> | ->]; reflexivity.
Qed.
Lemma q_data_loop bs sd n : trk bs ends_call (data_loop sd n).
Proof.
  induction n as [|n IH]; cbn [data_loop]; [apply q_out_of_fuel|].
  intros e s S Hs. unfold bind. destruct (q_step bs sd e s S Hs) as (H1 & new & H2 & H3).
  destruct (step sd e s) as [[[x|]|y| |] t] eqn:E; cbn [fst snd] in *.
  1,3-5: split; [exact H1|]; exists new; split; [exact H2|]; intros ev z I1 I2 I3; destruct (H3 ev z I1 I2 I3) as [F R]; split; [|exact R];
    unfold ends_step in F; try discriminate F; injection F as ->; reflexivity.
  destruct (IH e t S H1) as (K1 & new' & K2 & K3). split; [exact K1|]. exists (new' ++ new). split; [rewrite K2, H2; apply app_assoc|].
  intros ev x I1 I2 I3. apply in_app_or in I1 as [I1|I1].
  - destruct (K3 ev x I1 I2 I3) as [F (rest & ->)]. split; [exact F|]. exists (rest ++ new). reflexivity.
  - destruct (H3 ev x I1 I2 I3) as [F _]. discriminate F.
Qed.
Lemma q_mark_gap bs sd : mild bs (mark_gap sd). Proof. unfold mark_gap. hon_go. Qed.
Lemma q_count_data bs sd n : mild bs (modify (count_data sd n)). Proof. destruct sd; cbn [count_data]; hon_go. Qed.
#[export] Hint Resolve q_mark_gap q_count_data : hon.
Lemma q_data_call bs sd c : trk bs ends_call (data_call sd c).
Proof.
  unfold data_call. do 3 (apply trk_bind_mild; [hon_go|]; intro).
  assert (K : trk bs ends_call (if pd_is_empty c && negb (sstate_eqb (d_status a1) SsClosed) then log LvError "ZERO_LENGTH_DATA_CHUNKS" ;; ret SsClosed
      else
        modify (count_data sd (pd_len c)) ;;
        if sstate_eqb (d_status a1) SsTunnel then ret SsTunnel
        else
          by_side sd (let* r := get_d SResp in when (sstate_eqb (d_status r) SsDataOther) (set_status SResp SsData)) (ret tt) ;;
          let* early := (if pd_is_gap c then mark_gap sd else ret None) in
          match early with
          | Some x => ret x
          | None => let* s := get in data_loop sd (loop_fuel sd s)
          end)).
  { destruct (_ && _); [apply mild_trk; hon_go|]. apply trk_bind_mild; [apply q_count_data|]. intros _. destruct (sstate_eqb _ _); [apply q_ret|].
    apply trk_bind_mild; [hon_go|]. intros _. apply trk_bind_mild; [hon_go|]. intros [x|]; [apply q_ret|].
    apply trk_bind_mild; [hon_go|]. intro s. apply q_data_loop. }
  destruct (d_status a1); try exact K; apply mild_trk; hon_go.
Qed.

(** The receivers stay as they should over any history. *)
Lemma recv_ok_op o e s : recv_ok s -> recv_ok (snd (run_op o e s)).
Proof.
  intro Hs. assert (S : silent false e) by (intro; discriminate).
  assert (W : forall A (m : M A) Q, trk false Q m -> recv_ok (snd (m e s))) by (intros A m Q H; now apply (H e s S Hs)).
  assert (L : forall A (m : M A), trk false (fun _ _ => True) m -> recv_ok (snd (m e s))) by (intros A m H; apply (W _ _ _ H)).
  assert (T : forall A (Q : res A -> status -> Prop) m, trk false Q m -> forall e s, recv_ok s -> recv_ok (snd (m e s))).
  { intros A Q m H e' s' Hs'. apply (H e' s'); [intro; discriminate|exact Hs']. }
  assert (B : forall A B (m : M A) (k : A -> M B), (forall e s, recv_ok s -> recv_ok (snd (m e s))) ->
    (forall a e s, recv_ok s -> recv_ok (snd (k a e s))) -> forall e s, recv_ok s -> recv_ok (snd (bind m k e s))).
  { intros A B m k Hm Hk e' s' Hs'. unfold bind. specialize (Hm e' s' Hs'). destruct (m e' s') as [[a|x| |] t]; cbn [snd] in *; auto. }
  assert (DC : forall sd c e s, recv_ok s -> recv_ok (snd (data_call sd c e s))) by (intros sd c; eapply T, (q_data_call false)).
  assert (CS : forall sd e s, recv_ok s -> recv_ok (snd (close_status sd e s))).
  { intros sd. eapply (T _ never). unfold close_status. hon_go. }
  revert e s Hs S W L. intros e s Hs _ _ _. revert e s Hs. destruct o as [|c|c| | |i]; cbn [run_op].
  - eapply (T _ never). hon_go.
  - apply B; [apply DC|]. intros a e s Hs. exact Hs.
  - apply B; [apply DC|]. intros a e s Hs. exact Hs.
  - apply B; [apply CS|]. intros _. apply B; [apply DC|]. intros a e s Hs. exact Hs.
  - apply B; [apply CS|]. intros _. apply B; [apply CS|]. intros _. apply B; [apply DC|]. intros _. apply B; [apply DC|]. intros _.
    apply B; [intros e s Hs; exact Hs|]. intro e0. apply B; [|intros _ e s Hs; exact Hs].
    destruct (c_flush _); cbn [when]; [|intros e s Hs; exact Hs]. unfold flush_incomplete_transactions.
    apply B; [intros e s Hs; exact Hs|]. intro e1. apply B; [intros e s Hs; exact Hs|]. intro s1.
    induction (map fst _) as [|i l IH]; cbn [for_each]; [intros e s Hs; exact Hs|]. apply B; [|intros _; exact IH].
    apply B.
    + intros e s Hs. unfold ignore. pose proof (T _ _ _ (q_tx_hook false HTransactionComplete i) e s Hs) as G.
      destruct (tx_hook _ _ e s) as [[a|x| |] t]; exact G.
    + intros _. destruct (c_auto_destroy _); cbn [when]; intros e s Hs; exact Hs.
  - intros e s Hs. exact Hs.
Qed.
Lemma recv_ok_history e l : recv_ok (snd (history e l)).
Proof.
  unfold history. assert (G : forall l s, recv_ok s -> recv_ok (snd (run_ops l e s))).
  { clear l. induction l as [|o l IH]; intros s Hs; [exact Hs|]. cbn [run_ops]. unfold bind. pose proof (recv_ok_op o e s Hs) as H.
    destruct (run_op o e s) as [[a|x| |] t]; cbn [snd] in *; auto. specialize (IH t H). destruct (run_ops l e t) as [[b|x| |] u]; exact IH. }
  apply G. split; reflexivity.
Qed.
Lemma refusal_ends_call bs e l sd c : silent bs e -> let s := snd (history e l) in
  exists new, s_trace (snd (data_call sd c e s)) = new ++ s_trace s /\
    forall ev x, In (ev, x) new -> heed bs (ev_hook ev) = true -> x = SStop \/ x = SError ->
      fst (data_call sd c e s) = ROk (match x with SStop => SsStop | _ => SsError end) /\ exists rest, new = (ev, x) :: rest.
Proof. intros S s. apply (q_data_call bs sd c e s S (recv_ok_history e l)). Qed.
