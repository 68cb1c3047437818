(** Callbacks that accept, and the log, do not influence the parser. *)
From Verif Require Import Base ModelState ModelTx ModelConn SpecConn ProofsBase.

(** Two states that agree but for the log and the trace, and whose traces grew alike since they held [fst p] and [snd p]. *)
Definition since (p : list event * list event) (s s' : st) : Prop := bare s = bare s' /\ exists D, events s = fst p ++ D /\ events s' = snd p ++ D.
Lemma since_similar s s' : since ([], []) s s' <-> similar s s'.
Proof. split; [intros [H (D & E1 & E2)]; split; [exact H|]; cbn in *; congruence|intros [H E]; split; [exact H|]; exists (events s); cbn; split; [reflexivity|now symmetry]]. Qed.
(** [com m]: two runs from such states agree and end in such states. *)
Definition com {A} (m : M A) : Prop := forall e e' s s', accepting e -> accepting e' -> alike e e' -> forall p, since p s s' ->
  fst (m e s) = fst (m e' s') /\ since p (snd (m e s)) (snd (m e' s')).
Lemma com_of A (m : M A) : (forall e s, accepting e ->
  fst (m e s) = fst (m (mute e) (bare s)) /\ bare (snd (m e s)) = bare (snd (m (mute e) (bare s))) /\
  s_trace (snd (m e s)) = s_trace (snd (m (mute e) (bare s))) ++ s_trace s) -> com m.
Proof.
  intros H e e' s s' A1 A2 L p [E1 (D & E2 & E3)]. destruct (H e s A1) as (H1 & H2 & H3). destruct (H e' s' A2) as (H4 & H5 & H6).
  unfold alike in L. split; [congruence|]. split; [congruence|]. unfold events in *. rewrite H3, H6, !map_app, !rev_app_distr, E2, E3, <- !app_assoc. unfold mute in *.
  exists (D ++ rev (map fst (s_trace (snd (m (mute e) (bare s)))))). split; [reflexivity|]. unfold mute. rewrite L, E1. reflexivity.
Qed.
Lemma com_ret A (a : A) : com (ret a). Proof. intros e e' s s' _ _ _ p E. split; [reflexivity|exact E]. Qed.
Lemma com_fail A x : com (@fail A x). Proof. intros e e' s s' _ _ _ p E. split; [reflexivity|exact E]. Qed.
Lemma com_panic A : com (@panic A). Proof. intros e e' s s' _ _ _ p E. split; [reflexivity|exact E]. Qed.
Lemma com_out_of_fuel A : com (@out_of_fuel A). Proof. intros e e' s s' _ _ _ p E. split; [reflexivity|exact E]. Qed.
Lemma com_bind A B (m : M A) (k : A -> M B) : com m -> (forall a, com (k a)) -> com (bind m k).
Proof.
  intros Hm Hk e e' s s' A1 A2 L p E. unfold bind. destruct (Hm e e' s s' A1 A2 L p E) as [H1 H2].
  destruct (m e s) as [r t]. destruct (m e' s') as [r' t']. cbn [fst snd] in *. subst r'.
  destruct r; [now apply Hk| | |]; split; assumption || reflexivity.
Qed.
Lemma com_get A (k : st -> M A) : (forall s, k s = k (bare s)) -> (forall s, com (k s)) -> com (bind get k).
Proof.
  intros H Hk e e' s s' A1 A2 L p E. unfold bind, get. rewrite (H s'), <- (proj1 E), <- (H s). now apply Hk.
Qed.
Lemma com_ask A (k : env -> M A) : (forall e, k e = k (mute e)) -> (forall e, com (k e)) -> com (bind ask k).
Proof.
  intros H Hk e e' s s' A1 A2 L p E. unfold bind, ask. rewrite (H e'), <- L, <- (H e). now apply Hk.
Qed.
Lemma com_ask2 A (k : env -> M A) : (forall e0 e s, k e0 e s = k (mute e0) e s) -> (forall e, com (k e)) -> com (bind ask k).
Proof.
  intros H Hk e e' s s' A1 A2 L p E. unfold bind, ask. rewrite (H e'), <- L, <- (H e). now apply Hk.
Qed.
Lemma com_get_d sd : com (get_d sd). Proof. apply com_of. intros e s _. destruct sd; repeat split; reflexivity. Qed.
Lemma com_input : com input. Proof. apply com_of. intros e s _. repeat split; reflexivity. Qed.
Lemma com_slice : com slice. Proof. apply com_of. intros e s _. repeat split; reflexivity. Qed.
Lemma com_modify f : (forall s, bare (f s) = bare (f (bare s))) -> (forall s, s_trace (f s) = s_trace (f (bare s)) ++ s_trace s) -> com (modify f).
Proof. intros H1 H2. apply com_of. intros e s _. split; [reflexivity|]. split; [apply H1|apply H2]. Qed.
Lemma com_upd_d sd f : com (upd_d sd f). Proof. apply com_modify; intro s; destruct sd; reflexivity. Qed.
Lemma com_ignore A (m : M A) : com m -> com (ignore m).
Proof.
  intros Hm e e' s s' A1 A2 L p E. unfold ignore. destruct (Hm e e' s s' A1 A2 L p E) as [H1 H2].
  destruct (m e s) as [r t]. destruct (m e' s') as [r' t']. cbn [fst snd] in *. subst r'. destruct r; split; assumption || reflexivity.
Qed.
Lemma com_try A (m : M A) : com m -> com (try m).
Proof.
  intros Hm e e' s s' A1 A2 L p E. unfold try. destruct (Hm e e' s s' A1 A2 L p E) as [H1 H2].
  destruct (m e s) as [r t]. destruct (m e' s') as [r' t']. cbn [fst snd] in *. subst r'. destruct r; split; assumption || reflexivity.
Qed.
Lemma com_when b m : com m -> com (when b m). Proof. intro H. destruct b; [exact H|apply com_ret]. Qed.
Lemma com_for_each A (f : A -> M unit) l : (forall a, com (f a)) -> com (for_each f l).
Proof. intros H. induction l as [|a l IH]; cbn [for_each]; [apply com_ret|apply com_bind; [apply H|intros _; exact IH]]. Qed.
Lemma com_log lv c : com (log lv c).
Proof.
  apply com_of. intros e s _. split; [reflexivity|]. unfold log. cbn [snd]. destruct (lv <=? _), (lv <=? _); split; reflexivity.
Qed.
Lemma com_cur_tx sd : com (cur_tx sd).
Proof.
  apply com_of. intros e s _. unfold cur_tx. replace (s_idx sd (bare s)) with (s_idx sd s) by now destruct sd.
  change (s_txs (bare s)) with (s_txs s). change (c_max_tx (e_cfg (mute e))) with (c_max_tx (e_cfg e)).
  destruct tx_get; [repeat split; reflexivity|]. destruct (_ <=? _); repeat split; reflexivity.
Qed.
Lemma com_check_free i : com (check_free i).
Proof.
  apply com_of. intros e s _. unfold check_free. change (s_txs (bare s)) with (s_txs s).
  change (c_auto_destroy (e_cfg (mute e))) with (c_auto_destroy (e_cfg e)). split; [reflexivity|]. cbn [snd].
  destruct (c_auto_destroy _); [|split; reflexivity]. destruct tx_get as [t|]; [|split; reflexivity]. destruct (is_complete t); split; reflexivity.
Qed.
(** What the callbacks answer is looked at by [check] (and, for parameters, compared with OK). *)
Lemma accepting_check e s ev : accepting e -> check (e_cb e s ev) = ret tt.
Proof. intros [A _]. destruct (A s ev) as [-> | [_ ->]]; reflexivity. Qed.
Lemma since_push p ev r r' s s' : since p s s' -> since p (set_s_trace ((ev, r) :: s_trace s) s) (set_s_trace ((ev, r') :: s_trace s') s').
Proof.
  intros [E1 (D & E2 & E3)]. split; [exact E1|]. exists (D ++ [ev]). unfold events in *. cbn [s_trace set_s_trace map fst rev]. rewrite E2, E3, <- !app_assoc. split; reflexivity.
Qed.
Lemma com_data_hook h i d : com (data_hook h i d).
Proof.
  intros e e' s s' A1 A2 L p E. unfold data_hook, call, bind. rewrite !accepting_check by assumption. split; [reflexivity|]. now apply since_push.
Qed.
Lemma com_tx_hook h i : com (tx_hook h i).
Proof.
  apply com_get; [reflexivity|]. intro s. destruct tx_get; [apply com_data_hook|apply com_ret].
Qed.
Lemma com_param i n v : com (let* r := call HParam i (PlParam n v) in match r with SOk => ret tt | _ => fail r end).
Proof.
  intros e e' s s' A1 A2 L p E. unfold call, bind.
  assert (P : forall e s, accepting e -> e_cb e s (mk_ev HParam i (PlParam n v)) = SOk).
  { intros e0 s0 [H _]. destruct (H s0 (mk_ev HParam i (PlParam n v))) as [-> | [K _]]; [reflexivity|]. now elim K. }
  rewrite !P by assumption. split; [reflexivity|]. now apply since_push.
Qed.

Create HintDb com.
#[export] Hint Resolve com_get_d com_input com_slice com_upd_d com_log com_cur_tx com_check_free com_data_hook com_tx_hook com_param : com.
Ltac com_step :=
  lazymatch goal with
  | |- forall _, _ => intro
  | |- com (ret _) => apply com_ret
  | |- com (fail _) => apply com_fail
  | |- com panic => apply com_panic
  | |- com out_of_fuel => apply com_out_of_fuel
  | |- com (bind get _) => apply com_get; [intro; reflexivity|]
  | |- com (bind ask _) => apply com_ask; [intro; reflexivity|]
  | |- com (bind (call HParam _ (PlParam _ _)) _) => apply com_param
  | |- com (bind _ _) => apply com_bind
  | |- com (ignore _) => apply com_ignore
  | |- com (try _) => apply com_try
  | |- com (when _ _) => apply com_when
  | |- com (for_each _ _) => apply com_for_each
  | |- com (modify _) => apply com_modify; intro; reflexivity
  | |- com (by_side ?sd _ _) => destruct sd; cbn [by_side]
  | |- com (match ?x with _ => _ end) => destruct x
  | |- com (let _ := _ in _) => cbv zeta
  | |- _ => solve [auto 2 with com]
  end.
Ltac com_go := repeat com_step.

Lemma com_logs l : com (logs l). Proof. unfold logs. com_go. Qed.
Lemma com_put_tx i t : com (put_tx i t). Proof. unfold put_tx. com_go. Qed.
#[export] Hint Resolve com_logs com_put_tx : com.
Lemma com_need_tx sd : com (need_tx sd). Proof. unfold need_tx. com_go. Qed.
Lemma com_the_tx sd : com (the_tx sd). Proof. unfold the_tx. com_go. Qed.
#[export] Hint Resolve com_need_tx com_the_tx : com.
Lemma com_put_cur sd (t : tx) : com (let* s := get in put_tx (s_idx sd s) t).
Proof. destruct sd; com_go. Qed.
Lemma com_mod_tx sd f : com (mod_tx sd f).
Proof. unfold mod_tx. destruct sd; com_go. Qed.
Lemma com_mod_tx_log sd f : com (mod_tx_log sd f).
Proof. unfold mod_tx_log. destruct sd; com_go. Qed.
#[export] Hint Resolve com_mod_tx com_mod_tx_log : com.
Lemma com_mod_txd sd f : com (mod_txd sd f). Proof. unfold mod_txd. com_go. Qed.
Lemma com_set_state sd x : com (set_state sd x). Proof. unfold set_state. com_go. Qed.
Lemma com_set_status sd x : com (set_status sd x). Proof. unfold set_status. com_go. Qed.
#[export] Hint Resolve com_mod_txd com_set_state com_set_status : com.
Lemma com_set_progress sd p : com (set_progress sd p). Proof. unfold set_progress. com_go. Qed.
Lemma com_set_input sd p : com (set_input sd p). Proof. unfold set_input. com_go. Qed.
#[export] Hint Resolve com_set_progress com_set_input : com.
Lemma com_consume sd n : com (consume sd n). Proof. unfold consume. com_go. Qed.
Lemma com_unconsume sd n : com (unconsume sd n). Proof. unfold unconsume. com_go. Qed.
Lemma com_slice_to n : com (slice_to n). Proof. unfold slice_to. com_go. Qed.
Lemma com_request_next : com request_next. Proof. unfold request_next. com_go. Qed.
Lemma com_response_next : com response_next. Proof. unfold response_next. com_go. Qed.
Lemma com_check r : com (check r). Proof. unfold check. com_go. Qed.
Lemma com_receiver_send_data sd : com (receiver_send_data sd).
Proof. unfold receiver_send_data. destruct sd; com_go. Qed.
#[export] Hint Resolve com_consume com_unconsume com_slice_to com_request_next com_response_next com_check com_receiver_send_data : com.
Lemma com_receiver_finalize_clear sd : com (receiver_finalize_clear sd). Proof. unfold receiver_finalize_clear. com_go. Qed.
Lemma com_handle_state_change sd : com (handle_state_change sd). Proof. unfold handle_state_change. com_go. Qed.
Lemma com_check_buffer_limit sd n : com (check_buffer_limit sd n). Proof. unfold check_buffer_limit. com_go. Qed.
#[export] Hint Resolve com_receiver_finalize_clear com_handle_state_change com_check_buffer_limit : com.
Lemma com_absent_lf sd : com (absent_lf sd). Proof. unfold absent_lf. com_go. Qed.
Lemma com_take_buf sd : com (take_buf sd). Proof. unfold take_buf. com_go. Qed.
Lemma com_check_limit_if_buffered sd n : com (check_limit_if_buffered sd n). Proof. unfold check_limit_if_buffered. com_go. Qed.
Lemma com_run_hook_body_data sd d : com (run_hook_body_data sd d).
Proof. unfold run_hook_body_data. destruct sd; cbn [by_side]; com_go. Qed.
Lemma com_add_mlen sd n : com (add_mlen sd n). Proof. unfold add_mlen. com_go. Qed.
Lemma com_add_elen sd n : com (add_elen sd n). Proof. unfold add_elen. com_go. Qed.
#[export] Hint Resolve com_absent_lf com_take_buf com_check_limit_if_buffered com_run_hook_body_data com_add_mlen com_add_elen : com.
Lemma com_decompressor_callback sd d : com (decompressor_callback sd d). Proof. unfold decompressor_callback. com_go. Qed.
#[export] Hint Resolve com_decompressor_callback : com.
Lemma com_run_tree sd t : com (run_tree sd t).
Proof. induction t as [ok slow|d k IH]; cbn [run_tree]; com_go. Qed.
#[export] Hint Resolve com_run_tree : com.
(** The decompressors. *)
Lemma com_codec A sd dc b (k : bool * bool -> M A) : (forall x, com (k x)) ->
  com (let* e := ask in let* s := get in let* x := run_tree sd (e_codec e s dc b) in k x).
Proof.
  intros Hk e e' s s' A1 A2 L p E.
  change (fst ((let* x := run_tree sd (e_codec e s dc b) in k x) e s) = fst ((let* x := run_tree sd (e_codec e' s' dc b) in k x) e' s') /\
    since p (snd ((let* x := run_tree sd (e_codec e s dc b) in k x) e s)) (snd ((let* x := run_tree sd (e_codec e' s' dc b) in k x) e' s'))).
  assert (C : e_codec e s dc b = e_codec e' s' dc b).
  { destruct A1 as [_ ->]. destruct A2 as [_ ->]. rewrite (proj1 E). change (e_codec e) with (e_codec (mute e)). rewrite L. reflexivity. }
  rewrite C. assert (G : com (let* x := run_tree sd (e_codec e' s' dc b) in k x)) by com_go. now apply G.
Qed.
Lemma com_codec_end sd dc b : com (let* e := ask in let* s := get in ignore (run_tree sd (e_codec e s dc b))).
Proof.
  intros e e' s s' A1 A2 L p E. unfold bind, ask, get.
  assert (C : e_codec e s dc b = e_codec e' s' dc b).
  { destruct A1 as [_ ->]. destruct A2 as [_ ->]. rewrite (proj1 E). change (e_codec e) with (e_codec (mute e)). rewrite L. reflexivity. }
  rewrite C. now apply com_ignore; [com_go|..].
Qed.
Lemma com_body_data sd d : com (body_data sd d).
Proof.
  unfold body_data. repeat first [apply com_codec_end | apply com_codec | com_step].
Qed.
#[export] Hint Resolve com_body_data : com.

Lemma com_parse_headers sd d : com (parse_headers sd d). Proof. unfold parse_headers. com_go. Qed.
Lemma encoding_list_level sd c v l : forall n z d, encoding_list sd (set_c_log_level v c) n z l d = encoding_list sd c n z l d.
Proof.
  induction l as [|x l IH]; intros n z d; [reflexivity|]. cbn [encoding_list].
  change (c_layer_limit (set_c_log_level v c)) with (c_layer_limit c). change (c_lzma_layers (set_c_log_level v c)) with (c_lzma_layers c).
  destruct (is_nil x); [apply IH|]. destruct (over _ _); [reflexivity|]. destruct (token_encoding x) as [ce lg].
  destruct (_ && _); [reflexivity|]. now rewrite IH.
Qed.
Lemma init_decompressors_level sd c v d : initialize_decompressors sd (set_c_log_level v c) d = initialize_decompressors sd c d.
Proof.
  unfold initialize_decompressors. replace (decompression_enabled sd (set_c_log_level v c)) with (decompression_enabled sd c) by now destruct sd.
  destruct (match headers_get_nocase_nozero _ _ with Some h => _ | None => _ end) as [f b].
  destruct (if decompression_enabled sd c then f else CeNone); try reflexivity.
  destruct headers_get_nocase_nozero as [h|]; [|reflexivity]. destruct (_ && b); [apply encoding_list_level|reflexivity].
Qed.
Lemma com_init_decompressors sd : com (init_decompressors sd).
Proof.
  unfold init_decompressors. com_step; [com_go|]. com_step. apply com_ask2; [|com_go].
  intros e0 e s. unfold mod_tx_log, bind at 1 4. destruct (the_tx sd e s) as [[t|x| |] s1]; try reflexivity.
  unfold mute. cbn [e_cfg]. now rewrite init_decompressors_level.
Qed.
Lemma com_finalize i : com (finalize i). Proof. unfold finalize. com_go. Qed.
#[export] Hint Resolve com_parse_headers com_init_decompressors com_finalize : com.
Lemma com_state_request_start : com state_request_start. Proof. unfold state_request_start. com_go. Qed.
Lemma com_state_request_headers : com state_request_headers. Proof. unfold state_request_headers. com_go. Qed.
Lemma com_tx_parse_request_line : com tx_parse_request_line. Proof. unfold tx_parse_request_line. com_go. Qed.
#[export] Hint Resolve com_state_request_start com_state_request_headers com_tx_parse_request_line : com.
Lemma com_state_request_line : com state_request_line. Proof. unfold state_request_line. com_go. Qed.
Lemma com_state_request_complete : com state_request_complete. Proof. unfold state_request_complete. com_go. Qed.
Lemma com_state_response_start : com state_response_start. Proof. unfold state_response_start. com_go. Qed.
Lemma com_state_response_headers : com state_response_headers. Proof. unfold state_response_headers. com_go. Qed.
Lemma com_state_response_line : com state_response_line. Proof. unfold state_response_line. com_go. Qed.
Lemma com_request_parser_check_waiting : com request_parser_check_waiting. Proof. unfold request_parser_check_waiting. com_go. Qed.
#[export] Hint Resolve com_state_request_line com_state_request_complete com_state_response_start com_state_response_headers com_state_response_line com_request_parser_check_waiting : com.
Lemma com_state_response_complete : com state_response_complete. Proof. unfold state_response_complete. com_go. Qed.
#[export] Hint Resolve com_state_response_complete : com.
Lemma com_request_chunked_length_loop n : forall d, com (request_chunked_length_loop n d).
Proof. induction n as [|n IH]; intro d; cbn [request_chunked_length_loop]; com_go. Qed.
Lemma com_response_chunked_length_loop n : forall d, com (response_chunked_length_loop n d).
Proof. induction n as [|n IH]; intro d; cbn [response_chunked_length_loop]; com_go. Qed.
#[export] Hint Resolve com_request_chunked_length_loop com_response_chunked_length_loop : com.
Lemma com_body_chunked_data sd : com (body_chunked_data sd). Proof. unfold body_chunked_data. com_go. Qed.
Lemma com_request_finalize_work w : com (request_finalize_work w).
Proof. unfold request_finalize_work, request_finalize_line. com_go. Qed.
Lemma com_request_line_complete l : com (request_line_complete l). Proof. unfold request_line_complete. com_go. Qed.
#[export] Hint Resolve com_body_chunked_data com_request_finalize_work com_request_line_complete : com.
Lemma com_handle_request_state : com handle_request_state.
Proof.
  unfold handle_request_state, request_idle, request_ignore_data_after_http_0_9, request_line, request_protocol, request_headers,
    request_connect_wait_response, request_connect_check, request_connect_probe_data, request_body_determine, request_body_chunked_length,
    request_body_chunked_data_end, request_body_identity, request_finalize. com_go.
Qed.
Lemma com_http_ahead d : com (http_ahead d). Proof. unfold http_ahead. com_go. Qed.
#[export] Hint Resolve com_handle_request_state com_http_ahead : com.
Lemma com_response_body_framing a b : com (response_body_framing a b). Proof. unfold response_body_framing. com_go. Qed.
#[export] Hint Resolve com_response_body_framing : com.
Lemma com_response_body_presence a b : com (response_body_presence a b). Proof. unfold response_body_presence. com_go. Qed.
Lemma com_resume_requests : com resume_requests. Proof. unfold resume_requests. com_go. Qed.
#[export] Hint Resolve com_response_body_presence com_resume_requests : com.
Lemma com_response_body_determine : com response_body_determine. Proof. unfold response_body_determine. com_go. Qed.
Lemma com_response_line_complete l : com (response_line_complete l). Proof. unfold response_line_complete. com_go. Qed.
Lemma com_response_trailer_done i : com (response_trailer_done i). Proof. unfold response_trailer_done. com_go. Qed.
Lemma com_response_finalize_work w : com (response_finalize_work w). Proof. unfold response_finalize_work. com_go. Qed.
#[export] Hint Resolve com_response_body_determine com_response_line_complete com_response_trailer_done com_response_finalize_work : com.
Lemma com_handle_response_state : com handle_response_state.
Proof.
  unfold handle_response_state, response_idle, response_line, response_headers, response_body_chunked_length, response_body_chunked_data_end,
    response_finalize, response_body_identity_stream_close, response_body_identity_cl_known. com_go.
Qed.
#[export] Hint Resolve com_handle_response_state : com.
Lemma com_handle_state sd : com (handle_state sd). Proof. unfold handle_state. com_go. Qed.
Lemma com_after_step sd rc : com (after_step sd rc). Proof. unfold after_step. com_go. Qed.
#[export] Hint Resolve com_handle_state com_after_step : com.
Lemma com_step1 sd : com (step sd). Proof. unfold step. com_go. Qed.
#[export] Hint Resolve com_step1 : com.
Lemma com_data_loop sd n : com (data_loop sd n). Proof. induction n as [|n IH]; cbn [data_loop]; com_go. Qed.
#[export] Hint Resolve com_data_loop : com.
Lemma com_mark_gap sd : com (mark_gap sd). Proof. unfold mark_gap. com_go. Qed.
#[export] Hint Resolve com_mark_gap : com.
Lemma com_count_data sd n : com (modify (count_data sd n)). Proof. destruct sd; cbn [count_data]; com_go. Qed.
#[export] Hint Resolve com_count_data : com.
Lemma com_data_call sd c : com (data_call sd c). Proof. unfold data_call. destruct sd; com_go. Qed.
Lemma com_close_status sd : com (close_status sd). Proof. unfold close_status. com_go. Qed.
#[export] Hint Resolve com_data_call com_close_status : com.
Lemma com_flush : com flush_incomplete_transactions. Proof. unfold flush_incomplete_transactions. com_go. Qed.
#[export] Hint Resolve com_flush : com.
Lemma com_run_op o : com (run_op o). Proof. unfold run_op. com_go. Qed.
#[export] Hint Resolve com_run_op : com.
Lemma com_run_ops l : com (run_ops l). Proof. induction l as [|o l IH]; cbn [run_ops]; com_go. Qed.
Lemma accepting_irrelevant e e' l : accepting e -> accepting e' -> alike e e' ->
  fst (history e l) = fst (history e' l) /\ similar (snd (history e l)) (snd (history e' l)).
Proof. intros A1 A2 L. rewrite <- since_similar. apply com_run_ops; [assumption|assumption|assumption|apply since_similar; split; reflexivity]. Qed.
Lemma similar_refl s : similar s s. Proof. split; reflexivity. Qed.
(** To the environment whose callbacks all answer OK and that logs nothing. *)
Lemma mute_mute e : mute (mute e) = mute e. Proof. reflexivity. Qed.
Lemma alike_mute e : alike e (mute e). Proof. reflexivity. Qed.
Lemma accepting_mute e : accepting e -> accepting (mute e).
Proof. intros [_ H]. split; [left; reflexivity|exact H]. Qed.
Lemma run_ops_mute e l s : accepting e ->
  fst (run_ops l e s) = fst (run_ops l (mute e) s) /\ similar (snd (run_ops l e s)) (snd (run_ops l (mute e) s)).
Proof. intro A. rewrite <- since_similar. apply com_run_ops; [assumption|now apply accepting_mute|apply alike_mute|apply since_similar, similar_refl]. Qed.
