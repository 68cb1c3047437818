(** Two runs side by side: under configurations that differ in the log level and in flushing only, with callbacks that answer alike,
    the parser does the same. *)
From Verif Require Import Base ModelUtil ModelState ModelTx ModelConn.

Definition putin (t : list (event * status)) (l : list logmsg) (s : st) : st := set_s_trace t (set_s_logs l s).
Definition lenient (x : status) : bool := match x with SOk | SDeclined => true | _ => false end.

Section Two.
Variables (e1 e2 : env) (b : bool) (same : event -> status -> status -> Prop) (keep : list logmsg -> list logmsg).
Hypothesis cfg : exists L, e_cfg e2 = set_c_flush b (set_c_log_level L (e_cfg e1)).
Hypothesis ip6 : e_ip6 e2 = e_ip6 e1.
Hypothesis b64 : e_b64 e2 = e_b64 e1.
Hypothesis same_as : forall ev x y, same ev x y -> x = y \/ (ev_hook ev <> HParam /\ lenient x = true /\ lenient y = true).
Hypothesis kept : forall lv c l,
  keep (if lv <=? c_log_level (e_cfg e1) then mk_log lv c :: l else l) = if lv <=? c_log_level (e_cfg e2) then mk_log lv c :: keep l else keep l.
Definition alike (x y : event * status) : Prop := fst x = fst y /\ same (fst x) (snd x) (snd y).
Definition R (s1 s2 : st) : Prop := exists t, s2 = putin t (keep (s_logs s1)) s1 /\ Forall2 alike (s_trace s1) t.
Hypothesis cbs : forall s1 s2 ev, R s1 s2 -> same ev (e_cb e1 s1 ev) (e_cb e2 s2 ev).
Hypothesis codecs : forall s1 s2 dc d, R s1 s2 -> e_codec e2 s2 dc d = e_codec e1 s1 dc d.

Definition sim {A} (m n : M A) : Prop := forall s1 s2, R s1 s2 -> fst (n e2 s2) = fst (m e1 s1) /\ R (snd (m e1 s1)) (snd (n e2 s2)).

Lemma sim_ret A (a : A) : sim (ret a) (ret a). Proof. intros s1 s2 H. split; [reflexivity|exact H]. Qed.
Lemma sim_fail A x : sim (@fail A x) (fail x). Proof. intros s1 s2 H. split; [reflexivity|exact H]. Qed.
Lemma sim_panic A : sim (@panic A) panic. Proof. intros s1 s2 H. split; [reflexivity|exact H]. Qed.
Lemma sim_fuel A : sim (@out_of_fuel A) out_of_fuel. Proof. intros s1 s2 H. split; [reflexivity|exact H]. Qed.
Lemma sim_bind A B (m n : M A) (k h : A -> M B) : sim m n -> (forall a, sim (k a) (h a)) -> sim (bind m k) (bind n h).
Proof.
  intros Hm Hk s1 s2 H. unfold bind. destruct (Hm s1 s2 H) as [E F]. destruct (m e1 s1) as [r s1'], (n e2 s2) as [r' s2']. cbn [fst snd] in *. subst r'.
  destruct r; [apply Hk, F|split; auto..].
Qed.
Lemma sim_ignore A (m n : M A) : sim m n -> sim (ignore m) (ignore n).
Proof.
  intros Hm s1 s2 H. unfold ignore. destruct (Hm s1 s2 H) as [E F]. destruct (m e1 s1) as [r s1'], (n e2 s2) as [r' s2']. cbn [fst snd] in *. subst r'.
  destruct r; split; auto.
Qed.
Lemma sim_try A (m n : M A) : sim m n -> sim (try m) (try n).
Proof.
  intros Hm s1 s2 H. unfold try. destruct (Hm s1 s2 H) as [E F]. destruct (m e1 s1) as [r s1'], (n e2 s2) as [r' s2']. cbn [fst snd] in *. subst r'.
  destruct r; split; auto.
Qed.
Lemma sim_when c (m n : M unit) : sim m n -> sim (when c m) (when c n).
Proof. intro H. destruct c; [exact H|apply sim_ret]. Qed.
Lemma sim_for_each A (f g : A -> M unit) l : (forall a, sim (f a) (g a)) -> sim (for_each f l) (for_each g l).
Proof. intro H. induction l as [|a r IH]; cbn [for_each]; [apply sim_ret|apply sim_bind; auto]. Qed.
(** What is read from the state reads the same, if it is not the log or the trace. *)
Lemma sim_get B (k h : st -> M B) : (forall s t l, h (putin t l s) = h s) -> (forall s, sim (k s) (h s)) -> sim (bind get k) (bind get h).
Proof. intros E Hk s1 s2 H. unfold bind, get. pose proof H as (t & -> & _). rewrite E. apply Hk, H. Qed.
Lemma sim_modify f : (forall s t l, f (putin t l s) = putin t l (f s)) -> (forall s, s_logs (f s) = s_logs s /\ s_trace (f s) = s_trace s) -> sim (modify f) (modify f).
Proof.
  intros E F s1 s2 (t & -> & H). split; [reflexivity|]. unfold modify. cbn [snd]. rewrite E. destruct (F s1) as [F1 F2]. exists t. rewrite F1, F2. auto.
Qed.
Lemma sim_get_d sd : sim (get_d sd) (get_d sd).
Proof. intros s1 s2 H. pose proof H as (t & -> & _). split; [destruct sd; reflexivity|exact H]. Qed.
Lemma sim_input : sim input input. Proof. intros s1 s2 H. pose proof H as (t & -> & _). split; [reflexivity|exact H]. Qed.
Lemma sim_slice : sim slice slice. Proof. intros s1 s2 H. pose proof H as (t & -> & _). split; [reflexivity|exact H]. Qed.
Lemma sim_log lv c : sim (log lv c) (log lv c).
Proof.
  intros s1 s2 (t & -> & H). split; [reflexivity|]. unfold log. cbn [snd]. pose proof (kept lv c (s_logs s1)) as K.
  exists t. destruct (lv <=? c_log_level (e_cfg e1)), (lv <=? c_log_level (e_cfg e2)); cbn [s_logs set_s_logs s_trace putin set_s_trace] in *; (split; [|exact H]);
    unfold putin in *; destruct s1; cbn in *; first [reflexivity|rewrite K; reflexivity|rewrite <- K; reflexivity].
Qed.
Lemma sim_logs l : sim (logs l) (logs l). Proof. apply sim_for_each. intro. apply sim_log. Qed.
Lemma sim_upd_d sd f : sim (upd_d sd f) (upd_d sd f).
Proof. apply sim_modify; intros s; [intros t l|split]; destruct sd; reflexivity. Qed.
Lemma sim_cur_tx sd : sim (cur_tx sd) (cur_tx sd).
Proof.
  intros s1 s2 H. pose proof H as (t & -> & F). unfold cur_tx. destruct cfg as (L & C). rewrite C. cbn [c_max_tx set_c_flush set_c_log_level].
  change (s_txs (putin t (keep (s_logs s1)) s1)) with (s_txs s1).
  replace (s_idx sd (putin t (keep (s_logs s1)) s1)) with (s_idx sd s1) by (destruct sd; reflexivity).
  destruct (tx_get _ _); [split; [reflexivity|exact H]|]. destruct (_ <=? _); [split; [reflexivity|exact H]|].
  split; [reflexivity|]. cbn [snd]. exists t. split; [reflexivity|exact F].
Qed.
Lemma sim_check_free i : sim (check_free i) (check_free i).
Proof.
  intros s1 s2 H. pose proof H as (t & -> & F). unfold check_free. destruct cfg as (L & C). rewrite C. cbn [c_auto_destroy set_c_flush set_c_log_level].
  change (s_txs (putin t (keep (s_logs s1)) s1)) with (s_txs s1).
  split; [reflexivity|]. cbn [snd]. destruct (c_auto_destroy _); [|exact H]. destruct (tx_get _ _); [|exact H]. destruct (is_complete _); [|exact H].
  exists t. split; [reflexivity|exact F].
Qed.
Lemma sim_call B h i d (k : status -> M B) :
  (forall x y, same (mk_ev h i d) x y -> sim (k x) (k y)) -> sim (bind (call h i d) k) (bind (call h i d) k).
Proof.
  intros Hk s1 s2 H. unfold bind, call. pose proof (cbs s1 s2 (mk_ev h i d) H) as S. apply Hk; [exact S|].
  destruct H as (t & -> & F). set (y := e_cb e2 _ _) in *. exists ((mk_ev h i d, y) :: t). split; [destruct s1; reflexivity|].
  constructor; [split; [reflexivity|exact S]|exact F].
Qed.
Lemma sim_check ev x y : same ev x y -> sim (check x) (check y).
Proof.
  intros S. destruct (same_as _ x y S) as [->|(_ & A & B)]; [destruct y; try apply sim_ret; apply sim_fail|].
  destruct x; try discriminate; destruct y; try discriminate; apply sim_ret.
Qed.
Lemma sim_data_hook h i d : sim (data_hook h i d) (data_hook h i d).
Proof. apply sim_call. intros x y S. eapply sim_check; eauto. Qed.
Lemma sim_param i d A (a : A) : sim (let* r := call HParam i d in match r with SOk => ret a | _ => fail r end) (let* r := call HParam i d in match r with SOk => ret a | _ => fail r end).
Proof. apply sim_call. intros x y S. destruct (same_as _ x y S) as [->|(B & _)]; [destruct y; try apply sim_ret; apply sim_fail|cbn in B; congruence]. Qed.
Lemma sim_codec B dc d (k : dtree -> M B) : (forall t, sim (k t) (k t)) ->
  sim (let* e := ask in let* s := get in k (e_codec e s dc d)) (let* e := ask in let* s := get in k (e_codec e s dc d)).
Proof. intros Hk s1 s2 H. unfold bind, ask, get. rewrite (codecs s1 s2 dc d H). apply Hk, H. Qed.
Lemma sim_ask B (k : env -> M B) :
  (forall e L cb cd, k (mk_env (set_c_flush b (set_c_log_level L (e_cfg e))) cb cd (e_ip6 e) (e_b64 e)) = k e) ->
  sim (k e1) (k e1) -> sim (bind ask k) (bind ask k).
Proof.
  intros E Hk s1 s2 H. unfold bind, ask. destruct cfg as (L & C). specialize (E e1 L (e_cb e2) (e_codec e2)). rewrite <- C, <- ip6, <- b64 in E.
  destruct (Hk s1 s2 H) as [F G]. replace (k e2) with (k e1); [split; assumption|]. rewrite <- E. destruct e2; reflexivity.
Qed.

Lemma sim_asks B (k h : env -> M B) : sim (k e1) (h e2) -> sim (bind ask k) (bind ask h).
Proof. intros Hk s1 s2 H. unfold bind, ask. apply Hk, H. Qed.
Create HintDb sim.
Ltac sim1 :=
  lazymatch goal with
  | |- sim (bind get _) (bind get _) => apply sim_get; [intros ? ? ?; reflexivity|intro]
  | |- sim (bind ask _) (bind ask _) => apply sim_ask; [intros ? ? ? ?; reflexivity|]
  | |- sim (bind (call HParam _ _) _) _ => apply sim_param
  | |- sim (bind _ _) (bind _ _) => apply sim_bind; [|intro]
  | |- sim (ret _) _ => apply sim_ret
  | |- sim (fail _) _ => apply sim_fail
  | |- sim panic _ => apply sim_panic
  | |- sim out_of_fuel _ => apply sim_fuel
  | |- sim (when _ _) _ => apply sim_when
  | |- sim (ignore _) _ => apply sim_ignore
  | |- sim (try _) _ => apply sim_try
  | |- sim (for_each _ _) _ => apply sim_for_each; intro
  | |- sim (log _ _) _ => apply sim_log
  | |- sim (logs _) _ => apply sim_logs
  | |- sim (upd_d _ _) _ => apply sim_upd_d
  | |- sim (get_d _) _ => apply sim_get_d
  | |- sim input _ => apply sim_input
  | |- sim slice _ => apply sim_slice
  | |- sim (cur_tx _) _ => apply sim_cur_tx
  | |- sim (check_free _) _ => apply sim_check_free
  | |- sim (modify _) _ => apply sim_modify; [intros ? ? ?; reflexivity|intro; split; reflexivity]
  | |- sim (data_hook _ _ _) _ => apply sim_data_hook
  | |- sim (by_side ?sd _ _) _ => destruct sd; cbn [by_side]
  | |- sim (if ?c then _ else _) _ => destruct c
  | |- sim (let '(_, _) := ?c in _) _ => destruct c
  | |- sim (match ?c with _ => _ end) _ => destruct c
  | |- forall _, _ => intro
  end.
Ltac sims := repeat first [solve [auto with sim nocore]|sim1].
Lemma sim_set_state (sd : side) (x : pstate) : sim (set_state sd x) (set_state sd x).
Proof. unfold set_state. sims. Qed.
Hint Resolve sim_set_state : sim.
Lemma sim_set_status (sd : side) (x : sstate) : sim (set_status sd x) (set_status sd x).
Proof. unfold set_status. sims. Qed.
Hint Resolve sim_set_status : sim.
Lemma sim_set_input (sd : side) (p : pdata) : sim (set_input sd p) (set_input sd p).
Proof. unfold set_input. sims. Qed.
Hint Resolve sim_set_input : sim.
Lemma sim_consume (sd : side) (n : N) : sim (consume sd n) (consume sd n).
Proof. unfold consume. sims. Qed.
Hint Resolve sim_consume : sim.
Lemma sim_unconsume (sd : side) (n : N) : sim (unconsume sd n) (unconsume sd n).
Proof. unfold unconsume. sims. Qed.
Hint Resolve sim_unconsume : sim.
Lemma sim_slice_to (n : N) : sim (slice_to n) (slice_to n).
Proof. unfold slice_to. sims. Qed.
Hint Resolve sim_slice_to : sim.
Lemma sim_put_tx (i : N) (t : tx) : sim (put_tx i t) (put_tx i t).
Proof. unfold put_tx. sims. Qed.
Hint Resolve sim_put_tx : sim.
Lemma sim_need_tx (sd : side) : sim (need_tx sd) (need_tx sd).
Proof. unfold need_tx. sims. Qed.
Hint Resolve sim_need_tx : sim.
Lemma sim_the_tx (sd : side) : sim (the_tx sd) (the_tx sd).
Proof. unfold the_tx. sims. Qed.
Hint Resolve sim_the_tx : sim.
Lemma sim_mod_tx (sd : side) (f : tx -> tx) : sim (mod_tx sd f) (mod_tx sd f).
Proof. unfold mod_tx. sims. Qed.
Hint Resolve sim_mod_tx : sim.
Lemma sim_mod_tx_log (sd : side) (f : tx -> tx * list logmsg) : sim (mod_tx_log sd f) (mod_tx_log sd f).
Proof. unfold mod_tx_log. sims. Qed.
Hint Resolve sim_mod_tx_log : sim.
Lemma sim_mod_txd (sd : side) (f : txdir -> txdir) : sim (mod_txd sd f) (mod_txd sd f).
Proof. unfold mod_txd. sims. Qed.
Hint Resolve sim_mod_txd : sim.
Lemma sim_set_progress (sd : side) (p : progress) : sim (set_progress sd p) (set_progress sd p).
Proof. unfold set_progress. sims. Qed.
Hint Resolve sim_set_progress : sim.
Lemma sim_request_next : sim request_next request_next.
Proof. unfold request_next. sims. Qed.
Hint Resolve sim_request_next : sim.
Lemma sim_response_next : sim response_next response_next.
Proof. unfold response_next. sims. Qed.
Hint Resolve sim_response_next : sim.
Lemma sim_tx_hook (h : hook) (i : N) : sim (tx_hook h i) (tx_hook h i).
Proof. unfold tx_hook. sim1. destruct (tx_get _ _); [|sims]. apply sim_data_hook. Qed.
Hint Resolve sim_tx_hook : sim.
Lemma sim_receiver_send_data (sd : side) : sim (receiver_send_data sd) (receiver_send_data sd).
Proof. unfold receiver_send_data. sims. Qed.
Hint Resolve sim_receiver_send_data : sim.
Lemma sim_receiver_finalize_clear (sd : side) : sim (receiver_finalize_clear sd) (receiver_finalize_clear sd).
Proof. unfold receiver_finalize_clear. sims. Qed.
Hint Resolve sim_receiver_finalize_clear : sim.
Lemma sim_handle_state_change (sd : side) : sim (handle_state_change sd) (handle_state_change sd).
Proof. unfold handle_state_change. sims. Qed.
Hint Resolve sim_handle_state_change : sim.
Lemma sim_check_buffer_limit (sd : side) (len : N) : sim (check_buffer_limit sd len) (check_buffer_limit sd len).
Proof. unfold check_buffer_limit. sims. Qed.
Hint Resolve sim_check_buffer_limit : sim.
Lemma sim_absent_lf (sd : side) : sim (absent_lf sd) (absent_lf sd).
Proof. unfold absent_lf. sims. Qed.
Hint Resolve sim_absent_lf : sim.
Lemma sim_take_buf (sd : side) : sim (take_buf sd) (take_buf sd).
Proof. unfold take_buf. sims. Qed.
Hint Resolve sim_take_buf : sim.
Lemma sim_check_limit_if_buffered (sd : side) (len : N) : sim (check_limit_if_buffered sd len) (check_limit_if_buffered sd len).
Proof. unfold check_limit_if_buffered. sims. Qed.
Hint Resolve sim_check_limit_if_buffered : sim.
Lemma sim_run_hook_body_data (sd : side) (d : payload) : sim (run_hook_body_data sd d) (run_hook_body_data sd d).
Proof. unfold run_hook_body_data. sims. Qed.
Hint Resolve sim_run_hook_body_data : sim.
Lemma sim_add_mlen (sd : side) (n : N) : sim (add_mlen sd n) (add_mlen sd n).
Proof. unfold add_mlen. sims. Qed.
Hint Resolve sim_add_mlen : sim.
Lemma sim_add_elen (sd : side) (n : N) : sim (add_elen sd n) (add_elen sd n).
Proof. unfold add_elen. sims. Qed.
Hint Resolve sim_add_elen : sim.
Lemma sim_decompressor_callback (sd : side) (d : option bytes) : sim (decompressor_callback sd d) (decompressor_callback sd d).
Proof. unfold decompressor_callback. sims. Qed.
Hint Resolve sim_decompressor_callback : sim.
Lemma sim_run_tree (sd : side) (t : dtree) : sim (run_tree sd t) (run_tree sd t).
Proof. induction t as [ok slow|d k IH]; cbn [run_tree]; sims. Qed.
Hint Resolve sim_run_tree : sim.
Lemma sim_body_data (sd : side) (data : option bytes) : sim (body_data sd data) (body_data sd data).
Proof. unfold body_data. do 3 (apply sim_bind; [sims|intro]). destruct (t_cep _); try solve [sims]; (destruct (t_dec _), data; [| |sims..]); (apply sim_bind; [sims|intro]).
  1,3,5,7: eapply (sim_codec _ _ _ (fun t => bind (run_tree sd t) _)); sims. all: eapply (sim_codec _ _ _ (fun t => ignore (run_tree sd t))); sims. Qed.
Hint Resolve sim_body_data : sim.
Lemma sim_parse_headers (sd : side) (data : bytes) : sim (parse_headers sd data) (parse_headers sd data).
Proof. unfold parse_headers. sims. Qed.
Hint Resolve sim_parse_headers : sim.
Lemma encoding_list_cfg sd c L d0 l : forall layers lzma d, encoding_list sd (set_c_flush d0 (set_c_log_level L c)) layers lzma l d = encoding_list sd c layers lzma l d.
Proof. induction l as [|v r IH]; intros; cbn [encoding_list]; rewrite ?IH; [reflexivity|]. cbn [c_layer_limit c_lzma_layers set_c_flush set_c_log_level]. destruct (token_encoding v). rewrite ?IH. reflexivity. Qed.
Lemma initialize_cfg sd c L d0 d : initialize_decompressors sd (set_c_flush d0 (set_c_log_level L c)) d = initialize_decompressors sd c d.
Proof.
  unfold initialize_decompressors. destruct (match headers_get_nocase_nozero _ _ with Some h => _ | None => _ end) as [f sp]. cbv zeta.
  replace (decompression_enabled sd (set_c_flush d0 (set_c_log_level L c))) with (decompression_enabled sd c) by (destruct sd; reflexivity).
  destruct (if decompression_enabled sd c then f else CeNone); try reflexivity. destruct (headers_get_nocase_nozero _ _); [|reflexivity]. destruct (_ && sp); [|reflexivity]. apply encoding_list_cfg.
Qed.
Lemma sim_init_decompressors (sd : side) : sim (init_decompressors sd) (init_decompressors sd).
Proof.
  unfold init_decompressors. apply sim_bind; [sims|intros _]. apply sim_asks.
  destruct cfg as (L & C). unfold mod_tx_log. apply sim_bind; [sims|intro t]. rewrite C, initialize_cfg. destruct (initialize_decompressors _ _ _). sims.
Qed.
Hint Resolve sim_init_decompressors : sim.
Lemma sim_state_request_start : sim state_request_start state_request_start.
Proof. unfold state_request_start. sims. Qed.
Hint Resolve sim_state_request_start : sim.
Lemma sim_state_request_headers : sim state_request_headers state_request_headers.
Proof. unfold state_request_headers. sims. Qed.
Hint Resolve sim_state_request_headers : sim.
Lemma sim_tx_parse_request_line : sim tx_parse_request_line tx_parse_request_line.
Proof. unfold tx_parse_request_line. sims. Qed.
Hint Resolve sim_tx_parse_request_line : sim.
Lemma sim_state_request_line : sim state_request_line state_request_line.
Proof. unfold state_request_line. sims. Qed.
Hint Resolve sim_state_request_line : sim.
Lemma sim_finalize (i : N) : sim (finalize i) (finalize i).
Proof. unfold finalize. sims. Qed.
Hint Resolve sim_finalize : sim.
Lemma sim_state_request_complete : sim state_request_complete state_request_complete.
Proof. unfold state_request_complete. sims. Qed.
Hint Resolve sim_state_request_complete : sim.
Lemma sim_state_response_start : sim state_response_start state_response_start.
Proof. unfold state_response_start. sims. Qed.
Hint Resolve sim_state_response_start : sim.
Lemma sim_state_response_headers : sim state_response_headers state_response_headers.
Proof. unfold state_response_headers. sims. Qed.
Hint Resolve sim_state_response_headers : sim.
Lemma sim_state_response_line : sim state_response_line state_response_line.
Proof. unfold state_response_line. sims. Qed.
Hint Resolve sim_state_response_line : sim.
Lemma sim_request_parser_check_waiting : sim request_parser_check_waiting request_parser_check_waiting.
Proof. unfold request_parser_check_waiting. sims. Qed.
Hint Resolve sim_request_parser_check_waiting : sim.
Lemma sim_state_response_complete : sim state_response_complete state_response_complete.
Proof. unfold state_response_complete. sims. Qed.
Hint Resolve sim_state_response_complete : sim.
Lemma sim_request_connect_check : sim request_connect_check request_connect_check.
Proof. unfold request_connect_check. sims. Qed.
Hint Resolve sim_request_connect_check : sim.
Lemma sim_request_connect_probe_data : sim request_connect_probe_data request_connect_probe_data.
Proof. unfold request_connect_probe_data. sims. Qed.
Hint Resolve sim_request_connect_probe_data : sim.
Lemma sim_request_connect_wait_response : sim request_connect_wait_response request_connect_wait_response.
Proof. unfold request_connect_wait_response. sims. Qed.
Hint Resolve sim_request_connect_wait_response : sim.
Lemma sim_request_body_chunked_data_end : sim request_body_chunked_data_end request_body_chunked_data_end.
Proof. unfold request_body_chunked_data_end. sims. Qed.
Hint Resolve sim_request_body_chunked_data_end : sim.
Lemma sim_body_chunked_data (sd : side) : sim (body_chunked_data sd) (body_chunked_data sd).
Proof. unfold body_chunked_data. sims. Qed.
Hint Resolve sim_body_chunked_data : sim.
Lemma sim_request_chunked_length_loop (fuel : nat) (data : bytes) : sim (request_chunked_length_loop fuel data) (request_chunked_length_loop fuel data).
Proof. revert data; induction fuel as [|fuel IH]; intro data; cbn [request_chunked_length_loop]; sims. Qed.
Hint Resolve sim_request_chunked_length_loop : sim.
Lemma sim_request_body_chunked_length : sim request_body_chunked_length request_body_chunked_length.
Proof. unfold request_body_chunked_length. sims. Qed.
Hint Resolve sim_request_body_chunked_length : sim.
Lemma sim_request_body_identity : sim request_body_identity request_body_identity.
Proof. unfold request_body_identity. sims. Qed.
Hint Resolve sim_request_body_identity : sim.
Lemma sim_request_body_determine : sim request_body_determine request_body_determine.
Proof. unfold request_body_determine. sims. Qed.
Hint Resolve sim_request_body_determine : sim.
Lemma sim_request_headers : sim request_headers request_headers.
Proof. unfold request_headers. sims. Qed.
Hint Resolve sim_request_headers : sim.
Lemma sim_request_protocol : sim request_protocol request_protocol.
Proof. unfold request_protocol. sims. Qed.
Hint Resolve sim_request_protocol : sim.
Lemma sim_request_line_complete (line : bytes) : sim (request_line_complete line) (request_line_complete line).
Proof. unfold request_line_complete. sims. Qed.
Hint Resolve sim_request_line_complete : sim.
Lemma sim_request_line : sim request_line request_line.
Proof. unfold request_line. sims. Qed.
Hint Resolve sim_request_line : sim.
Lemma sim_request_finalize_line (data : bytes) (buf_len : nat) : sim (request_finalize_line data buf_len) (request_finalize_line data buf_len).
Proof. unfold request_finalize_line. sims. Qed.
Hint Resolve sim_request_finalize_line : sim.
Lemma sim_request_finalize_work (work : bytes) : sim (request_finalize_work work) (request_finalize_work work).
Proof. unfold request_finalize_work. sims. Qed.
Hint Resolve sim_request_finalize_work : sim.
Lemma sim_request_finalize : sim request_finalize request_finalize.
Proof. unfold request_finalize. sims. Qed.
Hint Resolve sim_request_finalize : sim.
Lemma sim_request_ignore_data_after_http_0_9 : sim request_ignore_data_after_http_0_9 request_ignore_data_after_http_0_9.
Proof. unfold request_ignore_data_after_http_0_9. sims. Qed.
Hint Resolve sim_request_ignore_data_after_http_0_9 : sim.
Lemma sim_request_idle : sim request_idle request_idle.
Proof. unfold request_idle. sims. Qed.
Hint Resolve sim_request_idle : sim.
Lemma sim_handle_request_state : sim handle_request_state handle_request_state.
Proof. unfold handle_request_state. sims. Qed.
Hint Resolve sim_handle_request_state : sim.
Lemma sim_response_body_chunked_data_end : sim response_body_chunked_data_end response_body_chunked_data_end.
Proof. unfold response_body_chunked_data_end. sims. Qed.
Hint Resolve sim_response_body_chunked_data_end : sim.
Lemma sim_response_chunked_length_loop (fuel : nat) (data : bytes) : sim (response_chunked_length_loop fuel data) (response_chunked_length_loop fuel data).
Proof. revert data; induction fuel as [|fuel IH]; intro data; cbn [response_chunked_length_loop]; sims. Qed.
Hint Resolve sim_response_chunked_length_loop : sim.
Lemma sim_response_body_chunked_length : sim response_body_chunked_length response_body_chunked_length.
Proof. unfold response_body_chunked_length. sims. Qed.
Hint Resolve sim_response_body_chunked_length : sim.
Lemma sim_response_body_identity_cl_known : sim response_body_identity_cl_known response_body_identity_cl_known.
Proof. unfold response_body_identity_cl_known. sims. Qed.
Hint Resolve sim_response_body_identity_cl_known : sim.
Lemma sim_response_body_identity_stream_close : sim response_body_identity_stream_close response_body_identity_stream_close.
Proof. unfold response_body_identity_stream_close. sims. Qed.
Hint Resolve sim_response_body_identity_stream_close : sim.
Lemma sim_response_body_framing (cl te : option header) : sim (response_body_framing cl te) (response_body_framing cl te).
Proof. unfold response_body_framing. sims. Qed.
Hint Resolve sim_response_body_framing : sim.
Lemma sim_response_body_presence (cl te : option header) : sim (response_body_presence cl te) (response_body_presence cl te).
Proof. unfold response_body_presence. sims. Qed.
Hint Resolve sim_response_body_presence : sim.
Lemma sim_resume_requests : sim resume_requests resume_requests.
Proof. unfold resume_requests. sims. Qed.
Hint Resolve sim_resume_requests : sim.
Lemma sim_response_body_determine : sim response_body_determine response_body_determine.
Proof. unfold response_body_determine. sims. Qed.
Hint Resolve sim_response_body_determine : sim.
Lemma sim_http_ahead (next : bytes) : sim (http_ahead next) (http_ahead next).
Proof. unfold http_ahead. sims. Qed.
Hint Resolve sim_http_ahead : sim.
Lemma sim_response_line_complete (line : bytes) : sim (response_line_complete line) (response_line_complete line).
Proof. unfold response_line_complete. sims. Qed.
Hint Resolve sim_response_line_complete : sim.
Lemma sim_response_line : sim response_line response_line.
Proof. unfold response_line. sims. Qed.
Hint Resolve sim_response_line : sim.
Lemma sim_response_trailer_done (i : N) : sim (response_trailer_done i) (response_trailer_done i).
Proof. unfold response_trailer_done. sims. Qed.
Hint Resolve sim_response_trailer_done : sim.
Lemma sim_response_headers : sim response_headers response_headers.
Proof. unfold response_headers. sims. Qed.
Hint Resolve sim_response_headers : sim.
Lemma sim_response_finalize_work (work : bytes) : sim (response_finalize_work work) (response_finalize_work work).
Proof. unfold response_finalize_work. sims. Qed.
Hint Resolve sim_response_finalize_work : sim.
Lemma sim_response_finalize : sim response_finalize response_finalize.
Proof. unfold response_finalize. sims. Qed.
Hint Resolve sim_response_finalize : sim.
Lemma sim_response_idle : sim response_idle response_idle.
Proof. unfold response_idle. sims. Qed.
Hint Resolve sim_response_idle : sim.
Lemma sim_handle_response_state : sim handle_response_state handle_response_state.
Proof. unfold handle_response_state. sims. Qed.
Hint Resolve sim_handle_response_state : sim.
Lemma sim_handle_state (sd : side) : sim (handle_state sd) (handle_state sd).
Proof. unfold handle_state. sims. Qed.
Hint Resolve sim_handle_state : sim.
Lemma sim_after_step (sd : side) (rc : unit + status) : sim (after_step sd rc) (after_step sd rc).
Proof. unfold after_step. sims. Qed.
Hint Resolve sim_after_step : sim.
Lemma sim_step (sd : side) : sim (step sd) (step sd).
Proof. unfold step. sims. Qed.
Hint Resolve sim_step : sim.
Lemma sim_data_loop (sd : side) (fuel : nat) : sim (data_loop sd fuel) (data_loop sd fuel).
Proof. revert sd; induction fuel as [|fuel IH]; intros; cbn [data_loop]; sims. Qed.
Hint Resolve sim_data_loop : sim.
Lemma sim_mark_gap (sd : side) : sim (mark_gap sd) (mark_gap sd).
Proof. unfold mark_gap. sims. Qed.
Hint Resolve sim_mark_gap : sim.
Lemma sim_data_call (sd : side) (chunk : pdata) : sim (data_call sd chunk) (data_call sd chunk).
Proof. destruct sd; unfold data_call; sims. Qed.
Hint Resolve sim_data_call : sim.
Lemma sim_close_status (sd : side) : sim (close_status sd) (close_status sd).
Proof. unfold close_status. sims. Qed.
Hint Resolve sim_close_status : sim.
Lemma sim_run_op o : (o = OpClose -> c_flush (e_cfg e2) = c_flush (e_cfg e1)) -> sim (run_op o) (run_op o).
Proof.
  intro F. destruct o; cbn [run_op]; try solve [sims]. do 4 (apply sim_bind; [sims|intro]). apply sim_asks. rewrite (F eq_refl).
  apply sim_bind; [apply sim_when; unfold flush_incomplete_transactions; sims|intro; sims].
Qed.
Lemma sim_run_ops l : (In OpClose l -> c_flush (e_cfg e2) = c_flush (e_cfg e1)) -> sim (run_ops l) (run_ops l).
Proof.
  induction l as [|o r IH]; intro F; cbn [run_ops]; [sims|]. apply sim_bind; [apply sim_run_op; intros ->; apply F; now left|intro].
  apply sim_bind; [apply IH; intro; apply F; now right|intro; sims].
Qed.
End Two.
