(** Two runs side by side: under a configuration with looser limits the parser does the same until a limit is reported as exceeded. *)
From Verif Require Import Base ModelUtil ModelState ModelTx ModelConn SpecLimit.

Section Limit.
Variables (e1 e2 : env).
Hypothesis loose : looser e1 e2.
Hypothesis level : LvWarning <= c_log_level (e_cfg e1).
Definition hit (s : st) : Prop := exceeded (s_logs s).
Definition sim {A} (m n : M A) : Prop := forall s, (hit s -> hit (snd (m e1 s))) /\ (hit (snd (m e1 s)) \/ n e2 s = m e1 s).

Lemma hit_cons lv c s : In c limit_codes -> hit (set_s_logs (mk_log lv c :: s_logs s) s).
Proof. intro H. exists (mk_log lv c). split; [now left|exact H]. Qed.

Lemma error_shown : (LvError <=? c_log_level (e_cfg e1)) = true.
Proof. apply N.leb_le. unfold LvError, LvWarning in *. lia. Qed.
Lemma hit_step l s s' : s_logs s' = l ++ s_logs s -> hit s -> hit s'.
Proof. intros E (m & I & C). exists m. rewrite E. split; [apply in_or_app; now right|exact C]. Qed.
Lemma sim_same A (m : M A) : (forall s, exists l, s_logs (snd (m e1 s)) = l ++ s_logs s) -> (forall s, m e2 s = m e1 s) -> sim m m.
Proof. intros L E s. split; [|right; apply E]. destruct (L s) as (l & H). now apply (hit_step l). Qed.
Ltac same := apply sim_same; [intro; exists []; try reflexivity|reflexivity].
Lemma sim_ret A (a : A) : sim (ret a) (ret a). Proof. same. Qed.
Lemma sim_fail A x : sim (@fail A x) (fail x). Proof. same. Qed.
Lemma sim_panic A : sim (@panic A) panic. Proof. same. Qed.
Lemma sim_fuel A : sim (@out_of_fuel A) out_of_fuel. Proof. same. Qed.
Lemma sim_bind A B (m n : M A) (k h : A -> M B) : sim m n -> (forall a, sim (k a) (h a)) -> sim (bind m k) (bind n h).
Proof.
  intros Hm Hk s. unfold bind. destruct (Hm s) as [Mm Dm].
  destruct (m e1 s) as [r s1] eqn:E. cbn [snd] in *. destruct r as [a|x| |].
  - destruct (Hk a s1) as [Mk Dk]. split; [auto|]. destruct Dm as [Dm|Dm]; [left; auto|]. rewrite Dm. exact Dk.
  - split; [exact Mm|]. destruct Dm as [Dm|Dm]; [now left|right]. now rewrite Dm.
  - split; [exact Mm|]. destruct Dm as [Dm|Dm]; [now left|right]. now rewrite Dm.
  - split; [exact Mm|]. destruct Dm as [Dm|Dm]; [now left|right]. now rewrite Dm.
Qed.
Lemma sim_ignore A (m n : M A) : sim m n -> sim (ignore m) (ignore n).
Proof.
  intros Hm s. unfold ignore. destruct (Hm s) as [Mm Dm]. destruct (m e1 s) as [r s1] eqn:E. cbn [snd] in *.
  destruct r; (split; [exact Mm|]); (destruct Dm as [Dm|Dm]; [now left|right; now rewrite Dm]).
Qed.
Lemma sim_try A (m n : M A) : sim m n -> sim (try m) (try n).
Proof.
  intros Hm s. unfold try. destruct (Hm s) as [Mm Dm]. destruct (m e1 s) as [r s1] eqn:E. cbn [snd] in *.
  destruct r; (split; [exact Mm|]); (destruct Dm as [Dm|Dm]; [now left|right; now rewrite Dm]).
Qed.
Lemma sim_when c (m n : M unit) : sim m n -> sim (when c m) (when c n).
Proof. intro H. destruct c; [exact H|apply sim_ret]. Qed.
Lemma sim_for_each A (f g : A -> M unit) l : (forall a, sim (f a) (g a)) -> sim (for_each f l) (for_each g l).
Proof. intro H. induction l as [|a r IH]; cbn [for_each]; [apply sim_ret|apply sim_bind; auto]. Qed.
Lemma sim_get B (k h : st -> M B) : (forall s, sim (k s) (h s)) -> sim (bind get k) (bind get h).
Proof. intros H s. unfold bind, get. apply H. Qed.
Lemma sim_asks B (k h : env -> M B) : sim (k e1) (h e2) -> sim (bind ask k) (bind ask h).
Proof. intros H s. unfold bind, ask. apply H. Qed.
Lemma sim_ask B (k : env -> M B) :
  (forall e F G Ly Lz, k (mk_env (set_c_field_limit F (set_c_bomb_limit G (set_c_layer_limit Ly (set_c_lzma_layers Lz (e_cfg e))))) (e_cb e) (e_codec e) (e_ip6 e) (e_b64 e)) = k e) ->
  sim (k e1) (k e1) -> sim (bind ask k) (bind ask k).
Proof. intros E H. apply sim_asks. destruct loose as (F & G & Ly & Lz & C & _). rewrite C, E. exact H. Qed.
Lemma sim_modify f : (forall s, s_logs (f s) = s_logs s) -> sim (modify f) (modify f).
Proof. intro H. apply sim_same; [intro s; exists []; cbn; now rewrite H|reflexivity]. Qed.
Lemma sim_get_d sd : sim (get_d sd) (get_d sd). Proof. same. Qed.
Lemma sim_input : sim input input. Proof. same. Qed.
Lemma sim_slice : sim slice slice. Proof. same. Qed.
Lemma sim_log lv c : sim (log lv c) (log lv c).
Proof.
  apply sim_same.
  - intro s. unfold log. cbn [snd]. destruct (_ <=? _); [exists [mk_log lv c]|exists []]; reflexivity.
  - intro s. unfold log. destruct loose as (F & G & Ly & Lz & C & _). now rewrite C.
Qed.
Lemma sim_logs l : sim (logs l) (logs l). Proof. apply sim_for_each. intro. apply sim_log. Qed.
Lemma sim_upd_d sd f : sim (upd_d sd f) (upd_d sd f).
Proof. apply sim_modify. intro s. destruct sd; reflexivity. Qed.
Lemma sim_cur_tx sd : sim (cur_tx sd) (cur_tx sd).
Proof.
  apply sim_same.
  - intro s. exists []. unfold cur_tx. destruct (tx_get _ _); [reflexivity|]. destruct (_ <=? _); reflexivity.
  - intro s. unfold cur_tx. destruct loose as (F & G & Ly & Lz & C & _). now rewrite C.
Qed.
Lemma sim_check_free i : sim (check_free i) (check_free i).
Proof.
  apply sim_same.
  - intro s. exists []. unfold check_free. cbn [snd]. destruct (c_auto_destroy _); [|reflexivity]. destruct (tx_get _ _); [|reflexivity]. destruct (is_complete _); reflexivity.
  - intro s. unfold check_free. destruct loose as (F & G & Ly & Lz & C & _). now rewrite C.
Qed.
Lemma sim_call h i d : sim (call h i d) (call h i d).
Proof. apply sim_same; [intro s; exists []; reflexivity|]. intro s. unfold call. destruct loose as (F & G & Ly & Lz & C & _). now rewrite C. Qed.
Lemma sim_check x : sim (check x) (check x).
Proof. destruct x; try apply sim_ret; apply sim_fail. Qed.
Lemma sim_data_hook h i d : sim (data_hook h i d) (data_hook h i d).
Proof. apply sim_bind; [apply sim_call|intro; apply sim_check]. Qed.

(** * Where limits are compared *)
Lemma field_le : c_field_limit (e_cfg e1) <= c_field_limit (e_cfg e2).
Proof. destruct loose as (F & G & Ly & Lz & -> & H & _). exact H. Qed.
Lemma bomb_less d : bomb (e_cfg e2) d = true -> bomb (e_cfg e1) d = true.
Proof.
  destruct loose as (F & G & Ly & Lz & -> & _ & H & _). unfold bomb. cbn [e_cfg c_bomb_ratio c_bomb_limit set_c_field_limit set_c_bomb_limit set_c_layer_limit set_c_lzma_layers].
  rewrite !andb_true_iff, !N.ltb_lt. intros [A B]. split; [lia|exact B].
Qed.
Lemma over_le a b n : opt_le a b -> over b n = true -> over a n = true.
Proof. unfold opt_le, over. destruct b as [y|]; [|discriminate]. intros (x & -> & H). rewrite !N.ltb_lt. lia. Qed.
Lemma layers_le : opt_le (c_layer_limit (e_cfg e1)) (c_layer_limit (e_cfg e2)) /\ opt_le (c_lzma_layers (e_cfg e1)) (c_lzma_layers (e_cfg e2)).
Proof. destruct loose as (F & G & Ly & Lz & -> & _ & _ & H). exact H. Qed.
Definition told (l : list logmsg) : Prop := exists c, In c limit_codes /\ In (warning c) l.
Lemma encoding_less sd l : forall n k d, encoding_list sd (e_cfg e2) n k l d = encoding_list sd (e_cfg e1) n k l d \/ told (snd (encoding_list sd (e_cfg e1) n k l d)).
Proof.
  induction l as [|v r IH]; intros n k d; cbn [encoding_list]; [now left|]. destruct (is_nil v); [apply IH|]. destruct layers_le as [A B].
  destruct (over (c_layer_limit (e_cfg e1)) (n + 1)) eqn:O1.
  { right. exists "TOO_MANY_ENCODING_LAYERS"%string. cbn. auto 10. }
  destruct (over (c_layer_limit (e_cfg e2)) (n + 1)) eqn:O2; [apply (over_le _ _ _ A) in O2; congruence|].
  destruct (token_encoding v) as [ce lg]. set (z := match ce with CeLzma => true | _ => false end). set (k' := if z then k + 1 else k).
  set (c := match sd with SReq => n + 1 | SResp => k' end).
  destruct (z && over (c_lzma_layers (e_cfg e1)) c) eqn:P1.
  { right. cbn [snd]. unfold told. destruct sd; [exists "REQUEST_TOO_MANY_LZMA_LAYERS"%string|exists "RESPONSE_TOO_MANY_LZMA_LAYERS"%string]; (split; [cbn; auto 10|apply in_or_app; right; now left]). }
  destruct (z && over (c_lzma_layers (e_cfg e2)) c) eqn:P2.
  { apply andb_true_iff in P2 as [P2 P3]. apply (over_le _ _ _ B) in P3. rewrite P2, P3 in P1. discriminate. }
  destruct (IH (n + 1) k' (prepend_decompressor ce d)) as [->|K]; [now left|right].
  destruct (encoding_list sd (e_cfg e1) (n + 1) k' r (prepend_decompressor ce d)) as [d2 l2]. cbn [snd] in *. destruct K as (x & I & K). exists x. split; [exact I|apply in_or_app; now right].
Qed.
Lemma initialize_less sd d : initialize_decompressors sd (e_cfg e2) d = initialize_decompressors sd (e_cfg e1) d \/ told (snd (initialize_decompressors sd (e_cfg e1) d)).
Proof.
  unfold initialize_decompressors. destruct (match headers_get_nocase_nozero _ _ with Some h => _ | None => _ end) as [f sp]. cbv zeta.
  replace (decompression_enabled sd (e_cfg e2)) with (decompression_enabled sd (e_cfg e1)) by (destruct loose as (F & G & Ly & Lz & -> & _); destruct sd; reflexivity).
  destruct (if decompression_enabled sd (e_cfg e1) then f else CeNone); try (left; reflexivity). destruct (headers_get_nocase_nozero _ _); [|left; reflexivity].
  destruct (_ && sp); [|left; reflexivity]. apply encoding_less.
Qed.
Lemma logs_grow l : forall s, exists k, s_logs (snd (logs l e1 s)) = k ++ s_logs s.
Proof.
  induction l as [|m l IH]; intro s; [exists []; reflexivity|]. unfold logs. cbn [for_each]. unfold bind, log at 1. fold (logs l).
  destruct (IH (if lg_level m <=? c_log_level (e_cfg e1) then set_s_logs ({| lg_level := lg_level m; lg_code := lg_code m |} :: s_logs s) s else s)) as (k & E).
  unfold logs in *. rewrite E. destruct (_ <=? _); [|exists k; reflexivity]. exists (k ++ [mk_log (lg_level m) (lg_code m)]). cbn. now rewrite <- app_assoc.
Qed.
Lemma logs_hit l s : told l -> hit (snd (logs l e1 s)).
Proof.
  intros (c & C & I). revert s. induction l as [|m l IH]; intro s; [destruct I|]. unfold logs. cbn [for_each]. unfold bind, log at 1.
  destruct I as [->|I]; [|apply IH, I]. cbn [lg_level lg_code warning]. replace (LvWarning <=? c_log_level (e_cfg e1)) with true by (symmetry; now apply N.leb_le).
  set (s1 := set_s_logs _ s). destruct (logs_grow l s1) as (k & E). apply (hit_step k s1); [exact E|]. now apply hit_cons.
Qed.

Create HintDb sim.
Ltac sim1 :=
  lazymatch goal with
  | |- sim (bind get _) (bind get _) => apply sim_get; intro
  | |- sim (bind ask _) (bind ask _) => apply sim_ask; [intros ? ? ? ? ?; reflexivity|]
  | |- sim (bind _ _) (bind _ _) => apply sim_bind; [|intro]
  | |- sim (ret _) _ => apply sim_ret
  | |- sim (fail _) _ => apply sim_fail
  | |- sim panic _ => apply sim_panic
  | |- sim out_of_fuel _ => apply sim_fuel
  | |- sim (when _ _) _ => apply sim_when
  | |- sim (ignore _) _ => apply sim_ignore
  | |- sim (try _) _ => apply sim_try
  | |- sim (for_each _ _) _ => apply sim_for_each; intro
  | |- sim (log _ _) _ => apply sim_log
  | |- sim (logs _) _ => apply sim_logs
  | |- sim (upd_d _ _) _ => apply sim_upd_d
  | |- sim (get_d _) _ => apply sim_get_d
  | |- sim input _ => apply sim_input
  | |- sim slice _ => apply sim_slice
  | |- sim (cur_tx _) _ => apply sim_cur_tx
  | |- sim (check_free _) _ => apply sim_check_free
  | |- sim (modify _) _ => apply sim_modify; intro; reflexivity
  | |- sim (call _ _ _) _ => apply sim_call
  | |- sim (data_hook _ _ _) _ => apply sim_data_hook
  | |- sim (by_side ?sd _ _) _ => destruct sd; cbn [by_side]
  | |- sim (if ?c then _ else _) _ => destruct c
  | |- sim (let '(_, _) := ?c in _) _ => destruct c
  | |- sim (match ?c with _ => _ end) _ => destruct c
  | |- forall _, _ => intro
  end.
Ltac sims := repeat first [solve [auto with sim nocore]|sim1].
Lemma sim_set_state (sd : side) (x : pstate) : sim (set_state sd x) (set_state sd x).
Proof. unfold set_state. sims. Qed.
Hint Resolve sim_set_state : sim.
Lemma sim_set_status (sd : side) (x : sstate) : sim (set_status sd x) (set_status sd x).
Proof. unfold set_status. sims. Qed.
Hint Resolve sim_set_status : sim.
Lemma sim_set_input (sd : side) (p : pdata) : sim (set_input sd p) (set_input sd p).
Proof. unfold set_input. sims. Qed.
Hint Resolve sim_set_input : sim.
Lemma sim_consume (sd : side) (n : N) : sim (consume sd n) (consume sd n).
Proof. unfold consume. sims. Qed.
Hint Resolve sim_consume : sim.
Lemma sim_unconsume (sd : side) (n : N) : sim (unconsume sd n) (unconsume sd n).
Proof. unfold unconsume. sims. Qed.
Hint Resolve sim_unconsume : sim.
Lemma sim_slice_to (n : N) : sim (slice_to n) (slice_to n).
Proof. unfold slice_to. sims. Qed.
Hint Resolve sim_slice_to : sim.
Lemma sim_put_tx (i : N) (t : tx) : sim (put_tx i t) (put_tx i t).
Proof. unfold put_tx. sims. Qed.
Hint Resolve sim_put_tx : sim.
Lemma sim_need_tx (sd : side) : sim (need_tx sd) (need_tx sd).
Proof. unfold need_tx. sims. Qed.
Hint Resolve sim_need_tx : sim.
Lemma sim_the_tx (sd : side) : sim (the_tx sd) (the_tx sd).
Proof. unfold the_tx. sims. Qed.
Hint Resolve sim_the_tx : sim.
Lemma sim_mod_tx (sd : side) (f : tx -> tx) : sim (mod_tx sd f) (mod_tx sd f).
Proof. unfold mod_tx. sims. Qed.
Hint Resolve sim_mod_tx : sim.
Lemma sim_mod_tx_log (sd : side) (f : tx -> tx * list logmsg) : sim (mod_tx_log sd f) (mod_tx_log sd f).
Proof. unfold mod_tx_log. sims. Qed.
Hint Resolve sim_mod_tx_log : sim.
Lemma sim_mod_txd (sd : side) (f : txdir -> txdir) : sim (mod_txd sd f) (mod_txd sd f).
Proof. unfold mod_txd. sims. Qed.
Hint Resolve sim_mod_txd : sim.
Lemma sim_set_progress (sd : side) (p : progress) : sim (set_progress sd p) (set_progress sd p).
Proof. unfold set_progress. sims. Qed.
Hint Resolve sim_set_progress : sim.
Lemma sim_request_next : sim request_next request_next.
Proof. unfold request_next. sims. Qed.
Hint Resolve sim_request_next : sim.
Lemma sim_response_next : sim response_next response_next.
Proof. unfold response_next. sims. Qed.
Hint Resolve sim_response_next : sim.
Lemma sim_tx_hook (h : hook) (i : N) : sim (tx_hook h i) (tx_hook h i).
Proof. unfold tx_hook. sim1. destruct (tx_get _ _); [|sims]. apply sim_data_hook. Qed.
Hint Resolve sim_tx_hook : sim.
Lemma sim_receiver_send_data (sd : side) : sim (receiver_send_data sd) (receiver_send_data sd).
Proof. unfold receiver_send_data. sims. Qed.
Hint Resolve sim_receiver_send_data : sim.
Lemma sim_receiver_finalize_clear (sd : side) : sim (receiver_finalize_clear sd) (receiver_finalize_clear sd).
Proof. unfold receiver_finalize_clear. sims. Qed.
Hint Resolve sim_receiver_finalize_clear : sim.
Lemma sim_handle_state_change (sd : side) : sim (handle_state_change sd) (handle_state_change sd).
Proof. unfold handle_state_change. sims. Qed.
Hint Resolve sim_handle_state_change : sim.
Lemma sim_check_buffer_limit (sd : side) (len : N) : sim (check_buffer_limit sd len) (check_buffer_limit sd len).
Proof. unfold check_buffer_limit. destruct (_ =? 0); [sims|]. sim1; [sims|]. apply sim_asks. cbv zeta.
  destruct (N.ltb_spec (c_field_limit (e_cfg e1)) (blen (d_buf a) + len + match d_header a with Some h => blen h | None => 0 end)) as [A|A].
  - intro s. destruct sd; unfold bind, log, fail; rewrite error_shown; cbn [snd]; (split; [intros _|left]); apply hit_cons; cbn; auto 10.
  - destruct (N.ltb_spec (c_field_limit (e_cfg e2)) (blen (d_buf a) + len + match d_header a with Some h => blen h | None => 0 end)); [|sims]. pose proof field_le. lia. Qed.
Hint Resolve sim_check_buffer_limit : sim.
Lemma sim_absent_lf (sd : side) : sim (absent_lf sd) (absent_lf sd).
Proof. unfold absent_lf. sims. Qed.
Hint Resolve sim_absent_lf : sim.
Lemma sim_take_buf (sd : side) : sim (take_buf sd) (take_buf sd).
Proof. unfold take_buf. sims. Qed.
Hint Resolve sim_take_buf : sim.
Lemma sim_check_limit_if_buffered (sd : side) (len : N) : sim (check_limit_if_buffered sd len) (check_limit_if_buffered sd len).
Proof. unfold check_limit_if_buffered. sims. Qed.
Hint Resolve sim_check_limit_if_buffered : sim.
Lemma sim_run_hook_body_data (sd : side) (d : payload) : sim (run_hook_body_data sd d) (run_hook_body_data sd d).
Proof. unfold run_hook_body_data. sims. Qed.
Hint Resolve sim_run_hook_body_data : sim.
Lemma sim_add_mlen (sd : side) (n : N) : sim (add_mlen sd n) (add_mlen sd n).
Proof. unfold add_mlen. sims. Qed.
Hint Resolve sim_add_mlen : sim.
Lemma sim_add_elen (sd : side) (n : N) : sim (add_elen sd n) (add_elen sd n).
Proof. unfold add_elen. sims. Qed.
Hint Resolve sim_add_elen : sim.
Lemma sim_decompressor_callback (sd : side) (d : option bytes) : sim (decompressor_callback sd d) (decompressor_callback sd d).
Proof. unfold decompressor_callback. sim1; [sims|]. sim1; [sims|]. destruct a0; [|sims]. sim1; [sims|]. apply sim_asks.
  destruct (bomb (e_cfg e1) (x_dir sd a0)) eqn:A.
  - intro s. unfold bind, log, ret. rewrite error_shown. cbn [snd]. split; [intros _|left]; apply hit_cons; cbn; auto 10.
  - destruct (bomb (e_cfg e2) (x_dir sd a0)) eqn:B; [|sims]. apply bomb_less in B. congruence. Qed.
Hint Resolve sim_decompressor_callback : sim.
Lemma sim_run_tree (sd : side) (t : dtree) : sim (run_tree sd t) (run_tree sd t).
Proof. induction t as [ok slow|d k IH]; cbn [run_tree]; sims. Qed.
Hint Resolve sim_run_tree : sim.
Lemma sim_body_data (sd : side) (data : option bytes) : sim (body_data sd data) (body_data sd data).
Proof. unfold body_data. sims. Qed.
Hint Resolve sim_body_data : sim.
Lemma sim_parse_headers (sd : side) (data : bytes) : sim (parse_headers sd data) (parse_headers sd data).
Proof. unfold parse_headers. sims. Qed.
Hint Resolve sim_parse_headers : sim.
Lemma sim_init_decompressors (sd : side) : sim (init_decompressors sd) (init_decompressors sd).
Proof. unfold init_decompressors. sim1; [sims|]. apply sim_asks. unfold mod_tx_log. sim1; [sims|].
  pose proof (initialize_less sd (x_dir sd a0)) as [K|K].
  - rewrite K. destruct (initialize_decompressors _ _ _). sims.
  - destruct (initialize_decompressors sd (e_cfg e1) (x_dir sd a0)) as [d1 l1], (initialize_decompressors sd (e_cfg e2) (x_dir sd a0)) as [d2 l2]. cbn [snd] in K.
    intro s. unfold bind at 1 2 3 4 5 6, get. set (s1 := snd (put_tx (s_idx sd s) (set_x_dir sd d1 a0) e1 s)).
    assert (Q : hit (snd (logs l1 e1 s1))) by now apply logs_hit.
    assert (Z : snd (bind (put_tx (s_idx sd s) (set_x_dir sd d1 a0)) (fun _ => logs l1) e1 s) = snd (logs l1 e1 s1)) by reflexivity.
    split; [intros _|left]; exact Q. Qed.
Hint Resolve sim_init_decompressors : sim.
Lemma sim_state_request_start : sim state_request_start state_request_start.
Proof. unfold state_request_start. sims. Qed.
Hint Resolve sim_state_request_start : sim.
Lemma sim_state_request_headers : sim state_request_headers state_request_headers.
Proof. unfold state_request_headers. sims. Qed.
Hint Resolve sim_state_request_headers : sim.
Lemma sim_tx_parse_request_line : sim tx_parse_request_line tx_parse_request_line.
Proof. unfold tx_parse_request_line. sims. Qed.
Hint Resolve sim_tx_parse_request_line : sim.
Lemma sim_state_request_line : sim state_request_line state_request_line.
Proof. unfold state_request_line. sims. Qed.
Hint Resolve sim_state_request_line : sim.
Lemma sim_finalize (i : N) : sim (finalize i) (finalize i).
Proof. unfold finalize. sims. Qed.
Hint Resolve sim_finalize : sim.
Lemma sim_state_request_complete : sim state_request_complete state_request_complete.
Proof. unfold state_request_complete. sims. Qed.
Hint Resolve sim_state_request_complete : sim.
Lemma sim_state_response_start : sim state_response_start state_response_start.
Proof. unfold state_response_start. sims. Qed.
Hint Resolve sim_state_response_start : sim.
Lemma sim_state_response_headers : sim state_response_headers state_response_headers.
Proof. unfold state_response_headers. sims. Qed.
Hint Resolve sim_state_response_headers : sim.
Lemma sim_state_response_line : sim state_response_line state_response_line.
Proof. unfold state_response_line. sims. Qed.
Hint Resolve sim_state_response_line : sim.
Lemma sim_request_parser_check_waiting : sim request_parser_check_waiting request_parser_check_waiting.
Proof. unfold request_parser_check_waiting. sims. Qed.
Hint Resolve sim_request_parser_check_waiting : sim.
Lemma sim_state_response_complete : sim state_response_complete state_response_complete.
Proof. unfold state_response_complete. sims. Qed.
Hint Resolve sim_state_response_complete : sim.
Lemma sim_request_connect_check : sim request_connect_check request_connect_check.
Proof. unfold request_connect_check. sims. Qed.
Hint Resolve sim_request_connect_check : sim.
Lemma sim_request_connect_probe_data : sim request_connect_probe_data request_connect_probe_data.
Proof. unfold request_connect_probe_data. sims. Qed.
Hint Resolve sim_request_connect_probe_data : sim.
Lemma sim_request_connect_wait_response : sim request_connect_wait_response request_connect_wait_response.
Proof. unfold request_connect_wait_response. sims. Qed.
Hint Resolve sim_request_connect_wait_response : sim.
Lemma sim_request_body_chunked_data_end : sim request_body_chunked_data_end request_body_chunked_data_end.
Proof. unfold request_body_chunked_data_end. sims. Qed.
Hint Resolve sim_request_body_chunked_data_end : sim.
Lemma sim_body_chunked_data (sd : side) : sim (body_chunked_data sd) (body_chunked_data sd).
Proof. unfold body_chunked_data. sims. Qed.
Hint Resolve sim_body_chunked_data : sim.
Lemma sim_request_chunked_length_loop (fuel : nat) (data : bytes) : sim (request_chunked_length_loop fuel data) (request_chunked_length_loop fuel data).
Proof. revert data; induction fuel as [|fuel IH]; intro data; cbn [request_chunked_length_loop]; sims. Qed.
Hint Resolve sim_request_chunked_length_loop : sim.
Lemma sim_request_body_chunked_length : sim request_body_chunked_length request_body_chunked_length.
Proof. unfold request_body_chunked_length. sims. Qed.
Hint Resolve sim_request_body_chunked_length : sim.
Lemma sim_request_body_identity : sim request_body_identity request_body_identity.
Proof. unfold request_body_identity. sims. Qed.
Hint Resolve sim_request_body_identity : sim.
Lemma sim_request_body_determine : sim request_body_determine request_body_determine.
Proof. unfold request_body_determine. sims. Qed.
Hint Resolve sim_request_body_determine : sim.
Lemma sim_request_headers : sim request_headers request_headers.
Proof. unfold request_headers. sims. Qed.
Hint Resolve sim_request_headers : sim.
Lemma sim_request_protocol : sim request_protocol request_protocol.
Proof. unfold request_protocol. sims. Qed.
Hint Resolve sim_request_protocol : sim.
Lemma sim_request_line_complete (line : bytes) : sim (request_line_complete line) (request_line_complete line).
Proof. unfold request_line_complete. sims. Qed.
Hint Resolve sim_request_line_complete : sim.
Lemma sim_request_line : sim request_line request_line.
Proof. unfold request_line. sims. Qed.
Hint Resolve sim_request_line : sim.
Lemma sim_request_finalize_line (data : bytes) (buf_len : nat) : sim (request_finalize_line data buf_len) (request_finalize_line data buf_len).
Proof. unfold request_finalize_line. sims. Qed.
Hint Resolve sim_request_finalize_line : sim.
Lemma sim_request_finalize_work (work : bytes) : sim (request_finalize_work work) (request_finalize_work work).
Proof. unfold request_finalize_work. sims. Qed.
Hint Resolve sim_request_finalize_work : sim.
Lemma sim_request_finalize : sim request_finalize request_finalize.
Proof. unfold request_finalize. sims. Qed.
Hint Resolve sim_request_finalize : sim.
Lemma sim_request_ignore_data_after_http_0_9 : sim request_ignore_data_after_http_0_9 request_ignore_data_after_http_0_9.
Proof. unfold request_ignore_data_after_http_0_9. sims. Qed.
Hint Resolve sim_request_ignore_data_after_http_0_9 : sim.
Lemma sim_request_idle : sim request_idle request_idle.
Proof. unfold request_idle. sims. Qed.
Hint Resolve sim_request_idle : sim.
Lemma sim_handle_request_state : sim handle_request_state handle_request_state.
Proof. unfold handle_request_state. sims. Qed.
Hint Resolve sim_handle_request_state : sim.
Lemma sim_response_body_chunked_data_end : sim response_body_chunked_data_end response_body_chunked_data_end.
Proof. unfold response_body_chunked_data_end. sims. Qed.
Hint Resolve sim_response_body_chunked_data_end : sim.
Lemma sim_response_chunked_length_loop (fuel : nat) (data : bytes) : sim (response_chunked_length_loop fuel data) (response_chunked_length_loop fuel data).
Proof. revert data; induction fuel as [|fuel IH]; intro data; cbn [response_chunked_length_loop]; sims. Qed.
Hint Resolve sim_response_chunked_length_loop : sim.
Lemma sim_response_body_chunked_length : sim response_body_chunked_length response_body_chunked_length.
Proof. unfold response_body_chunked_length. sims. Qed.
Hint Resolve sim_response_body_chunked_length : sim.
Lemma sim_response_body_identity_cl_known : sim response_body_identity_cl_known response_body_identity_cl_known.
Proof. unfold response_body_identity_cl_known. sims. Qed.
Hint Resolve sim_response_body_identity_cl_known : sim.
Lemma sim_response_body_identity_stream_close : sim response_body_identity_stream_close response_body_identity_stream_close.
Proof. unfold response_body_identity_stream_close. sims. Qed.
Hint Resolve sim_response_body_identity_stream_close : sim.
Lemma sim_response_body_framing (cl te : option header) : sim (response_body_framing cl te) (response_body_framing cl te).
Proof. unfold response_body_framing. sims. Qed.
Hint Resolve sim_response_body_framing : sim.
Lemma sim_response_body_presence (cl te : option header) : sim (response_body_presence cl te) (response_body_presence cl te).
Proof. unfold response_body_presence. sims. Qed.
Hint Resolve sim_response_body_presence : sim.
Lemma sim_resume_requests : sim resume_requests resume_requests.
Proof. unfold resume_requests. sims. Qed.
Hint Resolve sim_resume_requests : sim.
Lemma sim_response_body_determine : sim response_body_determine response_body_determine.
Proof. unfold response_body_determine. sims. Qed.
Hint Resolve sim_response_body_determine : sim.
Lemma sim_http_ahead (next : bytes) : sim (http_ahead next) (http_ahead next).
Proof. unfold http_ahead. sims. Qed.
Hint Resolve sim_http_ahead : sim.
Lemma sim_response_line_complete (line : bytes) : sim (response_line_complete line) (response_line_complete line).
Proof. unfold response_line_complete. sims. Qed.
Hint Resolve sim_response_line_complete : sim.
Lemma sim_response_line : sim response_line response_line.
Proof. unfold response_line. sims. Qed.
Hint Resolve sim_response_line : sim.
Lemma sim_response_trailer_done (i : N) : sim (response_trailer_done i) (response_trailer_done i).
Proof. unfold response_trailer_done. sims. Qed.
Hint Resolve sim_response_trailer_done : sim.
Lemma sim_response_headers : sim response_headers response_headers.
Proof. unfold response_headers. sims. Qed.
Hint Resolve sim_response_headers : sim.
Lemma sim_response_finalize_work (work : bytes) : sim (response_finalize_work work) (response_finalize_work work).
Proof. unfold response_finalize_work. sims. Qed.
Hint Resolve sim_response_finalize_work : sim.
Lemma sim_response_finalize : sim response_finalize response_finalize.
Proof. unfold response_finalize. sims. Qed.
Hint Resolve sim_response_finalize : sim.
Lemma sim_response_idle : sim response_idle response_idle.
Proof. unfold response_idle. sims. Qed.
Hint Resolve sim_response_idle : sim.
Lemma sim_handle_response_state : sim handle_response_state handle_response_state.
Proof. unfold handle_response_state. sims. Qed.
Hint Resolve sim_handle_response_state : sim.
Lemma sim_handle_state (sd : side) : sim (handle_state sd) (handle_state sd).
Proof. unfold handle_state. sims. Qed.
Hint Resolve sim_handle_state : sim.
Lemma sim_after_step (sd : side) (rc : unit + status) : sim (after_step sd rc) (after_step sd rc).
Proof. unfold after_step. sims. Qed.
Hint Resolve sim_after_step : sim.
Lemma sim_step (sd : side) : sim (step sd) (step sd).
Proof. unfold step. sims. Qed.
Hint Resolve sim_step : sim.
Lemma sim_data_loop (sd : side) (fuel : nat) : sim (data_loop sd fuel) (data_loop sd fuel).
Proof. revert sd; induction fuel as [|fuel IH]; intros; cbn [data_loop]; sims. Qed.
Hint Resolve sim_data_loop : sim.
Lemma sim_mark_gap (sd : side) : sim (mark_gap sd) (mark_gap sd).
Proof. unfold mark_gap. sims. Qed.
Hint Resolve sim_mark_gap : sim.
Lemma sim_data_call (sd : side) (chunk : pdata) : sim (data_call sd chunk) (data_call sd chunk).
Proof. destruct sd; unfold data_call; sims. Qed.
Hint Resolve sim_data_call : sim.
Lemma sim_close_status (sd : side) : sim (close_status sd) (close_status sd).
Proof. unfold close_status. sims. Qed.
Hint Resolve sim_close_status : sim.
Lemma sim_run_op o : sim (run_op o) (run_op o).
Proof. destruct o; cbn [run_op]; try solve [sims]. unfold flush_incomplete_transactions. sims. Qed.
Lemma sim_run_ops l : sim (run_ops l) (run_ops l).
Proof. induction l as [|o r IH]; cbn [run_ops]; [sims|]. apply sim_bind; [apply sim_run_op|intro]. apply sim_bind; [exact IH|intro; sims]. Qed.
End Limit.
Theorem limits_matter_when_exceeded e e' l : looser e e' -> LvWarning <= c_log_level (e_cfg e) -> ~ exceeded (s_logs (snd (history e l))) -> history e' l = history e l.
Proof. intros Lo Lv H. destruct (sim_run_ops e e' Lo Lv l st_new) as [_ [X|X]]; [elim (H X)|exact X]. Qed.
