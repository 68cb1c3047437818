(** Reasoning about the connection model: relations that every step of a computation respects. *)
From Verif Require Import Base ModelState ModelTx ModelConn.
From Verif Require Import ProofsBase.

(** [R e s s'] holds between the state before and after [m], whatever [m] answers. *)
Definition stable {A} (R : env -> st -> st -> Prop) (m : M A) : Prop := forall e s, R e s (snd (m e s)).

Section Stable.
Variable R : env -> st -> st -> Prop.
Hypothesis Rrefl : forall e s, R e s s.
Hypothesis Rtrans : forall e a b c, R e a b -> R e b c -> R e a c.

Lemma stable_ret A (a : A) : stable R (ret a).
Proof using Rrefl. intros e s. apply Rrefl. Qed.
Lemma stable_fail A x : stable R (@fail A x).
Proof using Rrefl. intros e s. apply Rrefl. Qed.
Lemma stable_panic A : stable R (@panic A).
Proof using Rrefl. intros e s. apply Rrefl. Qed.
Lemma stable_out_of_fuel A : stable R (@out_of_fuel A).
Proof using Rrefl. intros e s. apply Rrefl. Qed.
Lemma stable_get : stable R get.
Proof using Rrefl. intros e s. apply Rrefl. Qed.
Lemma stable_ask : stable R ask.
Proof using Rrefl. intros e s. apply Rrefl. Qed.
Lemma stable_get_d sd : stable R (get_d sd).
Proof using Rrefl. intros e s. apply Rrefl. Qed.
Lemma stable_input : stable R input.
Proof using Rrefl. intros e s. apply Rrefl. Qed.
Lemma stable_slice : stable R slice.
Proof using Rrefl. intros e s. apply Rrefl. Qed.
Lemma stable_bind A B (m : M A) (k : A -> M B) :
  stable R m -> (forall a, stable R (k a)) -> stable R (bind m k).
Proof using Rtrans.
  intros Hm Hk e s. unfold bind. specialize (Hm e s).
  destruct (m e s) as [[a|x| |] s']; cbn [snd] in *; auto.
  eapply Rtrans; [exact Hm|apply Hk].
Qed.
Lemma stable_ignore A (m : M A) : stable R m -> stable R (ignore m).
Proof using. intros Hm e s. unfold ignore. specialize (Hm e s). destruct (m e s) as [[a|x| |] s']; auto. Qed.
Lemma stable_try A (m : M A) : stable R m -> stable R (try m).
Proof using. intros Hm e s. unfold try. specialize (Hm e s). destruct (m e s) as [[a|x| |] s']; auto. Qed.
Lemma stable_when b m : stable R m -> stable R (when b m).
Proof using Rrefl. intros H. destruct b; [exact H|apply stable_ret]. Qed.
Lemma stable_for_each A (f : A -> M unit) l : (forall a, stable R (f a)) -> stable R (for_each f l).
Proof using Rrefl Rtrans.
  intros H. induction l as [|a l IH]; cbn [for_each]; [apply stable_ret|apply stable_bind; [apply H|intros _; exact IH]].
Qed.
Lemma stable_modify f : (forall e s, R e s (f s)) -> stable R (modify f).
Proof using. intros H e s. apply H. Qed.
End Stable.

Create HintDb stab.

(** Follows the structure of a computation; what remains are its calls, to be found among the hints. *)
Ltac stab_step Rrefl Rtrans :=
  lazymatch goal with
  | |- forall _, _ => intro
  | |- stable _ (ret _) => apply (stable_ret _ Rrefl)
  | |- stable _ (fail _) => apply (stable_fail _ Rrefl)
  | |- stable _ panic => apply (stable_panic _ Rrefl)
  | |- stable _ out_of_fuel => apply (stable_out_of_fuel _ Rrefl)
  | |- stable _ get => apply (stable_get _ Rrefl)
  | |- stable _ ask => apply (stable_ask _ Rrefl)
  | |- stable _ (get_d _) => apply (stable_get_d _ Rrefl)
  | |- stable _ input => apply (stable_input _ Rrefl)
  | |- stable _ slice => apply (stable_slice _ Rrefl)
  | |- stable _ (bind _ _) => apply (stable_bind _ Rtrans)
  | |- stable _ (ignore _) => apply stable_ignore
  | |- stable _ (try _) => apply stable_try
  | |- stable _ (when _ _) => apply (stable_when _ Rrefl)
  | |- stable _ (for_each _ _) => apply (stable_for_each _ Rrefl Rtrans)
  | |- stable _ (by_side ?sd _ _) => destruct sd; cbn [by_side]
  | |- stable _ (match ?x with _ => _ end) => destruct x
  | |- stable _ (let _ := _ in _) => cbv zeta
  | |- _ => solve [auto 2 with stab]
  end.

(** * Computations that leave the state machines alone *)
Section Calls.
Variable R : env -> st -> st -> Prop.
Hypothesis Rrefl : forall e s, R e s s.
Hypothesis Rtrans : forall e a b c, R e a b -> R e b c -> R e a c.
Hypothesis Hlog : forall lv c, stable R (log lv c).
Hypothesis Hcall : forall h i d, stable R (call h i d).
Hypothesis Hcur : forall sd, stable R (cur_tx sd).
Hypothesis Hput : forall i t, stable R (put_tx i t).
Local Hint Resolve Hlog Hcall Hcur Hput : stab.
Local Ltac go := repeat (stab_step Rrefl Rtrans).

Lemma c_logs l : stable R (logs l).
Proof using Rrefl Rtrans Hlog. unfold logs. go. Qed.
Local Hint Resolve c_logs : stab.
Lemma c_need_tx sd : stable R (need_tx sd).
Proof using Rrefl Rtrans Hcur. unfold need_tx. go. Qed.
Lemma c_the_tx sd : stable R (the_tx sd).
Proof using Rrefl Rtrans Hcur. unfold the_tx. go. Qed.
Local Hint Resolve c_need_tx c_the_tx : stab.
Lemma c_mod_tx sd f : stable R (mod_tx sd f).
Proof using Rrefl Rtrans Hcur Hput. unfold mod_tx. go. Qed.
Lemma c_mod_tx_log sd f : stable R (mod_tx_log sd f).
Proof using Rrefl Rtrans Hcur Hput Hlog. unfold mod_tx_log. go. Qed.
Local Hint Resolve c_mod_tx c_mod_tx_log : stab.
Lemma c_mod_txd sd f : stable R (mod_txd sd f).
Proof using Rrefl Rtrans Hcur Hput. unfold mod_txd. go. Qed.
Local Hint Resolve c_mod_txd : stab.
Lemma c_set_progress sd p : stable R (set_progress sd p).
Proof using Rrefl Rtrans Hcur Hput. unfold set_progress. go. Qed.
Lemma c_check r : stable R (check r).
Proof using Rrefl. unfold check. go. Qed.
Local Hint Resolve c_set_progress c_check : stab.
Lemma c_data_hook h i d : stable R (data_hook h i d).
Proof using Rrefl Rtrans Hcall. unfold data_hook. go. Qed.
Lemma c_tx_hook h i : stable R (tx_hook h i).
Proof using Rrefl Rtrans Hcall. unfold tx_hook. go. Qed.
Local Hint Resolve c_data_hook c_tx_hook : stab.
Lemma c_check_buffer_limit sd n : stable R (check_buffer_limit sd n).
Proof using Rrefl Rtrans Hlog. unfold check_buffer_limit. go. Qed.
Local Hint Resolve c_check_buffer_limit : stab.
Lemma c_check_limit_if_buffered sd n : stable R (check_limit_if_buffered sd n).
Proof using Rrefl Rtrans Hlog. unfold check_limit_if_buffered. go. Qed.
Lemma c_run_hook_body_data sd d : stable R (run_hook_body_data sd d).
Proof using Rrefl Rtrans Hcall Hcur. unfold run_hook_body_data. go. Qed.
Lemma c_add_mlen sd n : stable R (add_mlen sd n).
Proof using Rrefl Rtrans Hcur Hput. unfold add_mlen. go. Qed.
Lemma c_add_elen sd n : stable R (add_elen sd n).
Proof using Rrefl Rtrans Hcur Hput. unfold add_elen. go. Qed.
Local Hint Resolve c_check_limit_if_buffered c_run_hook_body_data c_add_mlen c_add_elen : stab.
Lemma c_decompressor_callback sd d : stable R (decompressor_callback sd d).
Proof using Rrefl Rtrans Hlog Hcall Hcur Hput. unfold decompressor_callback. go. Qed.
Local Hint Resolve c_decompressor_callback : stab.
Lemma c_run_tree sd t : stable R (run_tree sd t).
Proof using Rrefl Rtrans Hlog Hcall Hcur Hput.
  induction t as [ok slow|d k IH]; cbn [run_tree]; go.
Qed.
Local Hint Resolve c_run_tree : stab.
Lemma c_body_data sd d : stable R (body_data sd d).
Proof using Rrefl Rtrans Hlog Hcall Hcur Hput. unfold body_data. go. Qed.
Local Hint Resolve c_body_data : stab.
Lemma c_parse_headers sd d : stable R (parse_headers sd d).
Proof using Rrefl Rtrans Hlog Hcall Hcur Hput. unfold parse_headers. go. Qed.
Lemma c_init_decompressors sd : stable R (init_decompressors sd).
Proof using Rrefl Rtrans Hlog Hcall Hcur Hput. unfold init_decompressors. go. Qed.
Local Hint Resolve c_parse_headers c_init_decompressors : stab.
Lemma c_tx_parse_request_line : stable R tx_parse_request_line.
Proof using Rrefl Rtrans Hlog Hcall Hcur Hput. unfold tx_parse_request_line. go. Qed.
Lemma c_finalize i : stable R (finalize i).
Proof using Rrefl Rtrans Hcall. unfold finalize. go. Qed.
Lemma c_state_response_line : stable R state_response_line.
Proof using Rrefl Rtrans Hlog Hcall Hcur Hput. unfold state_response_line. go. Qed.
Lemma c_slice_to n : stable R (slice_to n).
Proof using Rrefl Rtrans. unfold slice_to. go. Qed.
Lemma c_http_ahead n : stable R (http_ahead n).
Proof using Rrefl. unfold http_ahead. go. Qed.
End Calls.

(** * Relations that do not look at the directions of the parser *)
Section Machine.
Variable R : env -> st -> st -> Prop.
Hypothesis Rrefl : forall e s, R e s s.
Hypothesis Rtrans : forall e a b c, R e a b -> R e b c -> R e a c.
Hypothesis Hlog : forall lv c, stable R (log lv c).
Hypothesis Hcall : forall h i d, stable R (call h i d).
Hypothesis Hcur : forall sd, stable R (cur_tx sd).
Hypothesis Hput : forall i t, stable R (put_tx i t).
Hypothesis Hupd : forall sd f, stable R (upd_d sd f).
Hypothesis Hinp : forall f, stable R (modify (fun s => set_s_input (f s) s)).
Hypothesis Hflags : forall n, stable R (modify (fun s => set_s_cflags (N.lor (s_cflags s) n) s)).
Hypothesis Hidx : stable R (modify (fun s => set_s_chunk_idx (s_chunk_count s) s)).
Hypothesis Hother : forall b, stable R (modify (set_s_other_at_end b)).
Hypothesis Hfree : forall i, stable R (check_free i).
Hypothesis Hrnext : stable R (modify (fun s => set_s_ridx (wadd (s_ridx s) 1) s)).
Hypothesis Hpnext : stable R (modify (fun s => set_s_pidx (wadd (s_pidx s) 1) s)).
Local Hint Resolve Hlog Hcall Hcur Hput Hupd Hinp Hflags Hidx Hother Hfree Hrnext Hpnext : stab.
Local Ltac go := repeat (stab_step Rrefl Rtrans).

Let Hlogs := c_logs R Rrefl Rtrans Hlog.
Let Hneed := c_need_tx R Rrefl Rtrans Hcur.
Let Hthe := c_the_tx R Rrefl Rtrans Hcur.
Let Hmod := c_mod_tx R Rrefl Rtrans Hcur Hput.
Let Hmodlog := c_mod_tx_log R Rrefl Rtrans Hlog Hcur Hput.
Let Hmodd := c_mod_txd R Rrefl Rtrans Hcur Hput.
Let Hprog := c_set_progress R Rrefl Rtrans Hcur Hput.
Let Hdata := c_data_hook R Rrefl Rtrans Hcall.
Let Htx := c_tx_hook R Rrefl Rtrans Hcall.
Let Hlim := c_check_buffer_limit R Rrefl Rtrans Hlog.
Let Hlimb := c_check_limit_if_buffered R Rrefl Rtrans Hlog.
Let Hrun := c_run_hook_body_data R Rrefl Rtrans Hcall Hcur.
Let Hmlen := c_add_mlen R Rrefl Rtrans Hcur Hput.
Let Hbody := c_body_data R Rrefl Rtrans Hlog Hcall Hcur Hput.
Let Hhdrs := c_parse_headers R Rrefl Rtrans Hlog Hcall Hcur Hput.
Let Hinit := c_init_decompressors R Rrefl Rtrans Hlog Hcall Hcur Hput.
Let Hprl := c_tx_parse_request_line R Rrefl Rtrans Hlog Hcall Hcur Hput.
Let Hfin := c_finalize R Rrefl Rtrans Hcall.
Let Hsrl := c_state_response_line R Rrefl Rtrans Hlog Hcall Hcur Hput.
Let Hslice := c_slice_to R Rrefl Rtrans.
Let Hhttp := c_http_ahead R Rrefl.
Local Hint Resolve Hlogs Hneed Hthe Hmod Hmodlog Hmodd Hprog Hdata Htx Hlim Hlimb Hrun Hmlen Hbody Hhdrs Hinit Hprl Hfin
  Hsrl Hslice Hhttp : stab.

Lemma m_set_s_input p : stable R (modify (set_s_input p)).
Proof using Hinp. apply (Hinp (fun _ => p)). Qed.
Local Hint Resolve m_set_s_input : stab.
Lemma m_set_input sd p : stable R (set_input sd p).
Proof using All. unfold set_input. go. Qed.
Local Hint Resolve m_set_input : stab.
Lemma m_consume sd n : stable R (consume sd n).
Proof using All. unfold consume. go. Qed.
Lemma m_unconsume sd n : stable R (unconsume sd n).
Proof using All. unfold unconsume. go. Qed.
Lemma m_set_state sd n : stable R (set_state sd n).
Proof using All. unfold set_state. go. Qed.
Lemma m_set_status sd n : stable R (set_status sd n).
Proof using All. unfold set_status. go. Qed.
Lemma m_take_buf sd : stable R (take_buf sd).
Proof using All. unfold take_buf. go. Qed.
Local Hint Resolve m_consume m_unconsume m_set_state m_set_status m_take_buf : stab.
Lemma m_absent_lf sd : stable R (absent_lf sd).
Proof using All. unfold absent_lf. go. Qed.
Lemma m_request_next : stable R request_next.
Proof using All. unfold request_next. go. Qed.
Lemma m_response_next : stable R response_next.
Proof using All. unfold response_next. go. Qed.
Lemma m_receiver_send_data sd : stable R (receiver_send_data sd).
Proof using All. unfold receiver_send_data. go. Qed.
Local Hint Resolve m_absent_lf m_request_next m_response_next m_receiver_send_data : stab.
Lemma m_receiver_finalize_clear sd : stable R (receiver_finalize_clear sd).
Proof using All. unfold receiver_finalize_clear. go. Qed.
Lemma m_handle_state_change sd : stable R (handle_state_change sd).
Proof using All. unfold handle_state_change. go. Qed.
Local Hint Resolve m_receiver_finalize_clear m_handle_state_change : stab.
Lemma m_state_request_start : stable R state_request_start.
Proof using All. unfold state_request_start. go. Qed.
Lemma m_state_request_headers : stable R state_request_headers.
Proof using All. unfold state_request_headers. go. Qed.
Lemma m_state_request_line : stable R state_request_line.
Proof using All. unfold state_request_line. go. Qed.
Lemma m_state_request_complete : stable R state_request_complete.
Proof using All. unfold state_request_complete. go. Qed.
Lemma m_state_response_start : stable R state_response_start.
Proof using All. unfold state_response_start. go. Qed.
Lemma m_state_response_headers : stable R state_response_headers.
Proof using All. unfold state_response_headers. go. Qed.
Lemma m_request_parser_check_waiting : stable R request_parser_check_waiting.
Proof using All. unfold request_parser_check_waiting. go. Qed.
Local Hint Resolve m_request_parser_check_waiting : stab.
Lemma m_state_response_complete : stable R state_response_complete.
Proof using All. unfold state_response_complete. go. Qed.
Local Hint Resolve m_state_request_start m_state_request_headers m_state_request_line m_state_request_complete
  m_state_response_start m_state_response_headers m_state_response_complete : stab.

Lemma m_request_chunked_length_loop n d : stable R (request_chunked_length_loop n d).
Proof using All. revert d. induction n as [|n IH]; intros d; cbn [request_chunked_length_loop]; go. Qed.
Lemma m_response_chunked_length_loop n d : stable R (response_chunked_length_loop n d).
Proof using All. revert d. induction n as [|n IH]; intros d; cbn [response_chunked_length_loop]; go. Qed.
Lemma m_body_chunked_data sd : stable R (body_chunked_data sd).
Proof using All. unfold body_chunked_data. go. Qed.
Local Hint Resolve m_request_chunked_length_loop m_response_chunked_length_loop m_body_chunked_data : stab.

Lemma m_handle_request_state : stable R handle_request_state.
Proof using All.
  unfold handle_request_state, request_idle, request_ignore_data_after_http_0_9, request_line, request_line_complete,
    request_protocol, request_headers, request_connect_wait_response, request_connect_check, request_connect_probe_data,
    request_body_determine, request_body_chunked_length, request_body_chunked_data_end, request_body_identity,
    request_finalize, request_finalize_work, request_finalize_line.
  go.
Qed.
Lemma m_handle_response_state : stable R handle_response_state.
Proof using All.
  unfold handle_response_state, response_idle, response_line, response_line_complete, response_headers,
    response_trailer_done, response_body_determine, resume_requests, response_body_presence, response_body_framing,
    response_body_chunked_length, response_body_chunked_data_end, response_finalize, response_finalize_work,
    response_body_identity_stream_close, response_body_identity_cl_known.
  go.
Qed.
Local Hint Resolve m_handle_request_state m_handle_response_state : stab.
Lemma m_handle_state sd : stable R (handle_state sd).
Proof using All. unfold handle_state. go. Qed.
Local Hint Resolve m_handle_state : stab.
Lemma m_after_step sd rc : stable R (after_step sd rc).
Proof using All. unfold after_step. go. Qed.
Local Hint Resolve m_after_step : stab.
Lemma m_step sd : stable R (step sd).
Proof using All. unfold step. go. Qed.
Local Hint Resolve m_step : stab.
Lemma m_data_loop sd n : stable R (data_loop sd n).
Proof using All. induction n as [|n IH]; cbn [data_loop]; go. Qed.
Lemma m_mark_gap sd : stable R (mark_gap sd).
Proof using All. unfold mark_gap. go. Qed.
Lemma m_close_status sd : stable R (close_status sd).
Proof using All. unfold close_status. go. Qed.
Local Hint Resolve m_data_loop m_mark_gap m_close_status : stab.

(** The calls: besides the above they count what arrives and take transactions out. *)
Hypothesis Hcount : forall sd n, stable R (modify (count_data sd n)).
Local Hint Resolve Hcount : stab.
Lemma m_data_call sd p : stable R (data_call sd p).
Proof using All. unfold data_call. go. Qed.
Local Hint Resolve m_data_call : stab.
Hypothesis Hdel : forall i, stable R (modify (fun s => set_s_txs (tx_del i (s_txs s)) s)).
Local Hint Resolve Hdel : stab.
Lemma m_flush : stable R flush_incomplete_transactions.
Proof using All. unfold flush_incomplete_transactions. go. Qed.
Local Hint Resolve m_flush : stab.
Lemma m_run_op o : stable R (run_op o).
Proof using All. unfold run_op. go. Qed.
Local Hint Resolve m_run_op : stab.
Lemma m_run_ops l : stable R (run_ops l).
Proof using All. induction l as [|o l IH]; cbn [run_ops]; go. Qed.
End Machine.
