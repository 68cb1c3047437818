(** Properties C39-C41 and C50 of properties.jsonl: which callbacks run in a history, for which transaction, and what their
    answers do. *)
From Verif Require Import Base ModelState ModelTx ModelConn SpecConn SpecFlow ProofsQuiet ProofsHonest ProofsOnce ProofsOwner PropertiesConn.

(** * C50 *)
(** Two environments that differ only in the log level and in callbacks that all accept: the calls return the same, the same
    callbacks run in the same order with the same data, and the parsers agree in everything but the log. *)
Theorem C50_accepting_callbacks_change_nothing : forall e e' l, accepting e -> accepting e' -> alike e e' ->
  fst (history e l) = fst (history e' l) /\ similar (snd (history e l)) (snd (history e' l)).
Proof. exact accepting_irrelevant. Qed.
Print Assumptions C50_accepting_callbacks_change_nothing.
Definition declining : env := ex_env (set_c_log_level LvInfo config_default) (fun _ ev => match ev_hook ev with HParam => SOk | _ => SDeclined end).
Example C50_ex : accepting ok_env /\ accepting declining /\ alike ok_env declining /\
  length (s_trace (snd (history declining ex_ops))) = 18%nat /\
  s_trace (snd (history declining ex_ops)) <> s_trace (snd (history ok_env ex_ops)) /\
  length (s_logs (snd (history declining ex_ops))) = 1%nat /\
  length (s_logs (snd (history (ex_env (set_c_log_level 0 config_default) (fun _ _ => SOk)) ex_ops))) = 0%nat.
Proof.
  split; [split; [left; reflexivity|reflexivity]|]. split; [split; [|reflexivity]|].
  - intros s ev. destruct (ev_hook ev) eqn:E; cbn; rewrite E; auto; right; (split; [discriminate|reflexivity]).
  - split; [reflexivity|]. vm_compute. repeat split; try reflexivity. discriminate.
Qed.

(** * C41 *)
(** After any history, a data call in which a heeded callback answers STOP or ERROR returns exactly that, and no callback runs
    after it in this call. [new]: the callbacks of the call, latest first. *)
Theorem C41_refusal_ends_call : forall e l sd c, let s := snd (history e l) in
  exists new, s_trace (snd (data_call sd c e s)) = new ++ s_trace s /\
    forall ev x, In (ev, x) new -> heeded (ev_hook ev) = true -> x = SStop \/ x = SError ->
      fst (data_call sd c e s) = ROk (match x with SStop => SsStop | _ => SsError end) /\ exists rest, new = (ev, x) :: rest.
Proof.
  intros e l sd c s. destruct (refusal_ends_call false e l sd c ltac:(intro; discriminate)) as (new & H1 & H2).
  exists new. split; [exact H1|]. intros ev x I1 I2. apply H2; [exact I1|]. unfold heed. now rewrite I2.
Qed.
Print Assumptions C41_refusal_ends_call.
(** Without decompression the same holds of the body callbacks. *)
Theorem C41_body_refusal_ends_call : forall e l sd c, no_decompression e -> let s := snd (history e l) in
  exists new, s_trace (snd (data_call sd c e s)) = new ++ s_trace s /\
    forall ev x, In (ev, x) new -> heeded (ev_hook ev) || body_hook (ev_hook ev) = true -> x = SStop \/ x = SError ->
      fst (data_call sd c e s) = ROk (match x with SStop => SsStop | _ => SsError end) /\ exists rest, new = (ev, x) :: rest.
Proof. intros e l sd c S s. exact (refusal_ends_call true e l sd c (fun _ => S)). Qed.
Print Assumptions C41_body_refusal_ends_call.
Example C41_ex : fst (history (fails_at HRequestLine SStop) [OpOpen; OpReq (bytes_chunk get1)]) = ROk [None; Some SsStop] /\
  s_trace (snd (history (fails_at HRequestLine SStop) [OpOpen; OpReq (bytes_chunk get1)])) =
    [(mk_ev HRequestLine 0 PlNone, SStop); (mk_ev HRequestUriNormalize 0 PlNone, SOk); (mk_ev HRequestStart 0 PlNone, SOk)] /\
  no_decompression (fails_at HRequestLine SStop).
Proof. split; [vm_compute; reflexivity|]. split; [vm_compute; reflexivity|]. intros s dc b. exists true, false. reflexivity. Qed.
(** Findings. The answer of the REQUEST_START callback is ignored; so is that of a raw header data callback that runs
    because the chunk ends. *)
Theorem C41_request_start_refuted : exists e l ev, In (ev, SStop) (s_trace (snd (history e l))) /\
  ev_hook ev = HRequestStart /\ fst (history e l) = ROk [None; Some SsData] /\
  In (mk_ev HRequestComplete 0 PlNone) (events (snd (history e l))).
Proof.
  exists (fails_at HRequestStart SStop), [OpOpen; OpReq (bytes_chunk get1)], (mk_ev HRequestStart 0 PlNone). vm_compute.
  split; [|split; [reflexivity|split; [reflexivity|]]]; repeat (first [left; reflexivity|right]).
Qed.
Print Assumptions C41_request_start_refuted.
Theorem C41_header_data_refuted : exists e l ev, In (ev, SStop) (s_trace (snd (history e l))) /\
  ev_hook ev = HRequestHeaderData /\ fst (history e l) = ROk [None; Some SsData].
Proof.
  exists (ex_env config_default (fun _ ev => match ev_hook ev with HRequestHeaderData => SStop | _ => SOk end)),
    [OpOpen; OpReq (bytes_chunk (ln "GET / HTTP/1.1" ++ s2b "a: b"))], (mk_ev HRequestHeaderData 0 (PlData (s2b "a: b"))). vm_compute.
  split; [|split; reflexivity]. left. reflexivity.
Qed.
Print Assumptions C41_header_data_refuted.
(** A STOP from a body callback behind a decompressor comes out as ERROR. *)
Theorem C41_decompressed_body_refuted : exists e l ev, In (ev, SStop) (s_trace (snd (history e l))) /\
  ev_hook ev = HResponseBodyTx /\ fst (history e l) = ROk [None; Some SsData; Some SsError].
Proof.
  exists (mk_env config_default (fun _ ev => match ev_hook ev with HResponseBodyTx => SStop | _ => SOk end)
      (fun _ _ b => DCall b (fun ok => DRet ok false)) (fun _ => Some false) (fun _ => None)),
    [OpOpen; OpReq (bytes_chunk get1);
     OpResp (bytes_chunk (ln "HTTP/1.1 200 OK" ++ ln "Content-Encoding: gzip" ++ ln "Content-Length: 3" ++ eol ++ s2b "abc"))],
    (mk_ev HResponseBodyTx 0 (PlData (s2b "abc"))). vm_compute.
  split; [|split; reflexivity]. left. reflexivity.
Qed.
Print Assumptions C41_decompressed_body_refuted.

(** * C40 *)
(** Whatever the configuration, the callbacks and the calls: every callback about a response (line, headers, body, trailer,
    completion) runs for the transaction whose RESPONSE_START ran last. *)
Theorem C40_responses_announced : forall e l, announced SResp (events (snd (history e l))).
Proof. exact response_announced. Qed.
Print Assumptions C40_responses_announced.
(** The same of requests, when transactions are neither freed nor removed, errors are logged, no response was logged as having no
    request and no request has an Expect header. *)
Theorem C40_requests_announced : forall e l, c_auto_destroy (e_cfg e) = false -> LvError <= c_log_level (e_cfg e) ->
  Forall (fun o => forall i, o <> OpRemove i) l ->
  ~ In unmatched (s_logs (snd (history e l))) -> (forall i t, tx_get i (s_txs (snd (history e l))) = Some t -> ~ expecting t) ->
  announced SReq (events (snd (history e l))).
Proof. intros e l K L. exact (request_announced e K L l). Qed.
Print Assumptions C40_requests_announced.
Definition two_ops : list op :=
  [OpOpen; OpReq (bytes_chunk (ln "POST /a HTTP/1.1" ++ ln "Content-Length: 5" ++ eol ++ s2b "ab")); OpResp (bytes_chunk resp1);
   OpReq (bytes_chunk (s2b "cde" ++ get1)); OpResp (bytes_chunk resp1)].
Example C40_ex : c_auto_destroy (e_cfg ok_env) = false /\ LvError <= c_log_level (e_cfg ok_env) /\ Forall (fun o => forall i, o <> OpRemove i) two_ops /\
  ~ In unmatched (s_logs (snd (history ok_env two_ops))) /\
  (forall i t, tx_get i (s_txs (snd (history ok_env two_ops))) = Some t -> ~ expecting t) /\
  map ev_tx (filter (fun ev => match ev_hook ev with HRequestStart | HRequestBody | HRequestComplete | HResponseStart | HResponseBody => true | _ => false end)
    (events (snd (history ok_env two_ops)))) = [0; 0; 0; 0; 0; 0; 0; 0; 1; 1; 1; 1].
Proof.
  split; [reflexivity|]. split; [vm_compute; discriminate|]. split; [repeat constructor; discriminate|].
  split; [vm_compute; intuition discriminate|]. split; [|vm_compute; reflexivity].
  apply expecting_none. vm_compute. reflexivity.
Qed.
Definition post5 : bytes := ln "POST /a HTTP/1.1" ++ ln "Content-Length: 5" ++ eol.
(** Finding: an early response to request 0 and one more response move the request index on while request 0 is being read:
    the rest of its body goes to transaction 1, and request 0 is never completed. *)
Definition ahead_ops : list op :=
  [OpOpen; OpReq (bytes_chunk (post5 ++ s2b "ab")); OpResp (bytes_chunk resp1); OpResp (bytes_chunk resp1); OpReq (bytes_chunk (s2b "cde"))].
Theorem C40_response_ahead_refuted : exists e l, accepting e /\ Forall valid_op l /\
  filter (fun ev => match ev_hook ev, ev_data ev with HRequestBody, PlData _ | HRequestHeaders, _ | HRequestComplete, _ => true | _, _ => false end)
         (events (snd (history e l))) =
    [mk_ev HRequestHeaders 0 PlNone; mk_ev HRequestBody 0 (PlData (s2b "ab")); mk_ev HRequestBody 1 (PlData (s2b "cde"))].
Proof.
  exists ok_env, ahead_ops. split; [split; [left; reflexivity|reflexivity]|]. split; [repeat constructor|]. vm_compute. reflexivity.
Qed.
Print Assumptions C40_response_ahead_refuted.
(** Finding: a 4xx response to a request with "Expect: 100-continue" ends whatever request is being read. Here it answers request 0
    while the body of request 1 is awaited: the body is parsed as request 2. *)
Definition expect_get : bytes := ln "GET / HTTP/1.1" ++ ln "Expect: 100-continue" ++ eol.
Definition resp4 : bytes := ln "HTTP/1.1 417 No" ++ ln "Content-Length: 0" ++ eol.
Definition smuggling_ops : list op :=
  [OpOpen; OpReq (bytes_chunk (expect_get ++ ln "POST /a HTTP/1.1" ++ ln "Content-Length: 19" ++ eol)); OpResp (bytes_chunk resp4);
   OpReq (bytes_chunk (ln "GET /x HTTP/1.1" ++ eol))].
Theorem C40_expect_body_refuted : exists e l, accepting e /\ Forall valid_op l /\ l = smuggling_ops /\
  ~ In unmatched (s_logs (snd (history e l))) /\
  filter (fun ev => match ev_hook ev, ev_data ev with HRequestBody, PlData _ | HRequestHeaders, _ => true | _, _ => false end)
         (events (snd (history e l))) =
    [mk_ev HRequestHeaders 0 PlNone; mk_ev HRequestHeaders 1 PlNone; mk_ev HRequestHeaders 2 PlNone].
Proof.
  exists ok_env, smuggling_ops. split; [split; [left; reflexivity|reflexivity]|]. split; [repeat constructor|]. split; [reflexivity|].
  split; [vm_compute; intuition discriminate|]. vm_compute. reflexivity.
Qed.
Print Assumptions C40_expect_body_refuted.
(** Finding: it may also come between two requests; then a transaction gets body data and is completed although its request never
    started. *)
Definition orphan_ops : list op :=
  [OpOpen; OpReq (bytes_chunk (expect_get ++ ln "POST / HTTP/1.1" ++ ln "Expect: 100-continue" ++ ln "Content-Length: 5" ++ eol));
   OpResp (bytes_chunk resp4); OpReq (bytes_chunk eol); OpResp (bytes_chunk resp4); OpReq (bytes_chunk (ln "abcd")); OpReq (bytes_chunk get1)].
Theorem C40_expect_refuted : exists e l, accepting e /\ Forall valid_op l /\ ~ In unmatched (s_logs (snd (history e l))) /\
  In (mk_ev HRequestBody 2 (PlData (ln "abcd"))) (events (snd (history e l))) /\ In (mk_ev HRequestComplete 2 PlNone) (events (snd (history e l))) /\
  ~ In (mk_ev HRequestStart 2 PlNone) (events (snd (history e l))).
Proof.
  exists ok_env, orphan_ops. split; [split; [left; reflexivity|reflexivity]|]. split; [repeat constructor|].
  split; [vm_compute; intuition discriminate|]. split; [vm_compute; repeat (first [left; reflexivity|right])|].
  split; [vm_compute; repeat (first [left; reflexivity|right])|vm_compute; intuition discriminate].
Qed.
Print Assumptions C40_expect_refuted.

(** * C39 *)
(** When the callbacks accept and transactions are neither freed nor removed, REQUEST_COMPLETE and RESPONSE_COMPLETE each run at
    most once for every transaction index. The configured maximum is 32 bits wide in the code. *)
Theorem C39_completions_at_most_once : forall e l i, accepting e -> c_auto_destroy (e_cfg e) = false -> c_max_tx (e_cfg e) < 2 ^ 64 ->
  Forall (fun o => forall j, o <> OpRemove j) l ->
  (length (runs_of HRequestComplete i (snd (history e l))) <= 1 /\ length (runs_of HResponseComplete i (snd (history e l))) <= 1)%nat.
Proof. exact completions_at_most_once. Qed.
Print Assumptions C39_completions_at_most_once.
Example C39_ex : accepting ok_env /\ c_auto_destroy (e_cfg ok_env) = false /\ c_max_tx (e_cfg ok_env) < 2 ^ 64 /\
  Forall (fun o => forall j, o <> OpRemove j) ex_ops /\
  length (runs_of HRequestComplete 0 (snd (history ok_env ex_ops))) = 1%nat /\ length (runs_of HResponseComplete 0 (snd (history ok_env ex_ops))) = 1%nat.
Proof.
  split; [split; [left; reflexivity|reflexivity]|]. split; [reflexivity|]. split; [reflexivity|]. split; [repeat constructor; discriminate|].
  split; vm_compute; reflexivity.
Qed.
(** Finding: with a callback that answers STOP, closing the request side parses on: the same transaction starts and completes
    again. *)
Definition stopped_ops : list op :=
  [OpOpen; OpReq (bytes_chunk (post5 ++ s2b "ab")); OpResp (bytes_chunk resp1); OpReq (bytes_chunk (s2b "cdeGE"));
   OpReq (bytes_chunk (s2b "T / HTTP/1.1" ++ eol)); OpReqClose].
Theorem C39_request_complete_refuted : exists e l i, c_auto_destroy (e_cfg e) = false /\ Forall valid_op l /\
  fst (history e l) = ROk [None; Some SsData; Some SsData; Some SsData; Some SsStop; None] /\
  length (runs_of HRequestComplete i (snd (history e l))) = 2%nat.
Proof.
  exists (ex_env config_default (fun _ ev => match ev_hook ev with HTransactionComplete => SStop | _ => SOk end)), stopped_ops, 0. split; [reflexivity|]. split; [repeat constructor|]. vm_compute. split; reflexivity.
Qed.
Print Assumptions C39_request_complete_refuted.
(** TRANSACTION_COMPLETE runs at most twice, unless closing flushes the unfinished transactions. *)
Theorem C39_transaction_complete_at_most_twice : forall e l i, accepting e -> c_auto_destroy (e_cfg e) = false -> c_max_tx (e_cfg e) < 2 ^ 64 ->
  c_flush (e_cfg e) = false -> Forall (fun o => forall j, o <> OpRemove j) l ->
  (length (runs_of HTransactionComplete i (snd (history e l))) <= 2)%nat.
Proof. exact transaction_complete_twice. Qed.
Print Assumptions C39_transaction_complete_at_most_twice.
(** Findings: after a failed CONNECT the transaction is completed twice, and with auto-destroy its response as well (the first
    completion frees it while the response is still being read). *)
Definition failed_connect : list op :=
  [OpOpen; OpReq (bytes_chunk (ln "CONNECT h:1 HTTP/1.1" ++ eol)); OpResp (bytes_chunk (ln "HTTP/1.1 400 No" ++ ln "Content-Length: 0" ++ eol));
   OpReq (bytes_chunk get1); OpResp (bytes_chunk resp1)].
Theorem C39_transaction_complete_refuted : exists e l i, accepting e /\ Forall valid_op l /\ c_auto_destroy (e_cfg e) = false /\
  c_max_tx (e_cfg e) < 2 ^ 64 /\ c_flush (e_cfg e) = false /\ Forall (fun o => forall j, o <> OpRemove j) l /\
  length (runs_of HTransactionComplete i (snd (history e l))) = 2%nat.
Proof.
  exists ok_env, failed_connect, 0. split; [split; [left; reflexivity|reflexivity]|]. split; [repeat constructor|].
  do 3 (split; [reflexivity|]). split; [repeat constructor; discriminate|]. vm_compute. reflexivity.
Qed.
Print Assumptions C39_transaction_complete_refuted.
Theorem C39_response_complete_refuted : exists e l i, accepting e /\ Forall valid_op l /\
  length (runs_of HResponseComplete i (snd (history e l))) = 2%nat.
Proof.
  exists (ex_env (set_c_auto_destroy true config_default) (fun _ _ => SOk)), failed_connect, 0.
  split; [split; [left; reflexivity|reflexivity]|]. split; [repeat constructor|]. vm_compute. reflexivity.
Qed.
Print Assumptions C39_response_complete_refuted.
