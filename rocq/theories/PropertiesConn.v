(** Properties C28, C31-C36, C43 and C49 of properties.jsonl: whole histories of a connection. [history e l] runs the operations
    [l] from a new parser; [e] holds the configuration, arbitrary callbacks and arbitrary decompressors. *)
From Verif Require Import Base ModelState ModelTx ModelConn SpecConn ProofsCore ProofsLoop ProofsHist.

(** Concrete material for the examples: no decompression, callbacks [cb]. *)
Definition ex_env (c : config) (cb : st -> event -> status) : env :=
  mk_env c cb (fun _ _ _ => DRet true false) (fun _ => Some false) (fun _ => None).
Definition ok_env : env := ex_env config_default (fun _ _ => SOk).
Definition bytes_chunk (b : bytes) : pdata := set_pd_data (Some b) pd_default.
Definition gap_of (n : N) : pdata := set_pd_gap (Some n) pd_default.
Definition eol : bytes := [13; 10].
Definition ln (s : string) : bytes := s2b s ++ eol.
Definition get1 : bytes := ln "GET /a HTTP/1.1" ++ ln "Host: h" ++ eol.
Definition resp1 : bytes := ln "HTTP/1.1 200 OK" ++ ln "Content-Length: 3" ++ eol ++ s2b "abc".
(** Two pipelined requests, the second cut in its request line, one response with a body, a stray gap, the end. *)
Definition ex_ops : list op :=
  [OpOpen; OpReq (bytes_chunk (get1 ++ s2b "POST /")); OpResp (bytes_chunk resp1); OpResp (gap_of 5); OpClose].
Example ex_ops_valid : Forall valid_op ex_ops.
Proof. repeat constructor. Qed.

(** * C28 *)
Theorem C28_at_most_max_tx : forall e l,
  N.of_nat (length (s_txs (snd (history e l)))) <= c_max_tx (e_cfg e).
Proof. exact table_bounded. Qed.
Print Assumptions C28_at_most_max_tx.
(** What a data call can do to the table: [table_step] in SpecConn.v. *)
Theorem C28_data_calls_only_drop_complete : forall e sd chunk s,
  table_run (e_cfg e) (table s) (table (snd (data_call sd chunk e s))).
Proof. exact data_call_table. Qed.
Print Assumptions C28_data_calls_only_drop_complete.
Theorem C28_kept_without_auto_destroy : forall e l1 l2 i,
  c_auto_destroy (e_cfg e) = false -> ~ In (OpRemove i) l2 ->
  tx_get i (s_txs (snd (history e l1))) <> None ->
  tx_get i (s_txs (snd (run_ops l2 e (snd (history e l1))))) <> None.
Proof. exact live_stays_history. Qed.
Print Assumptions C28_kept_without_auto_destroy.
Example C28_ex : map fst (s_txs (snd (history ok_env ex_ops))) = [0; 1; 2] /\
  map fst (s_txs (snd (history (ex_env (set_c_max_tx 1 config_default) (fun _ _ => SOk)) ex_ops))) = [0] /\
  map fst (s_txs (snd (history (ex_env (set_c_auto_destroy true config_default) (fun _ _ => SOk)) ex_ops))) = [1; 2].
Proof. vm_compute. repeat split; reflexivity. Qed.

(** * C49: no history panics or runs for ever *)
(** The model's results are [ROk], [RErr] (an error that reaches the caller), [RPanic] and [RFuel] (more iterations than a bound):
    a history always ends in the first. *)
Theorem C49_histories_return : forall e l, Forall valid_op l -> exists r s, history e l = (ROk r, s).
Proof. intros e l V. destruct (history_ok e l V) as (r & s & H & _). exists r, s. exact H. Qed.
Print Assumptions C49_histories_return.
Example C49_ex : fst (history ok_env ex_ops) = ROk [None; Some SsData; Some SsData; Some SsError; None].
Proof. vm_compute. reflexivity. Qed.

(** * C31 *)
(** After any history, every call to either side returns: either at once, or after a number of iterations of its loop
    that is linear in the size of the chunk. [loops] has no bound of its own. *)
Theorem C31_calls_terminate : forall e l sd chunk, Forall valid_op l -> fresh_chunk chunk = true ->
  let s := snd (history e l) in
  exists o s1, begin_call sd chunk e s = (ROk o, s1) /\
    match o with
    | Some x => data_call sd chunk e s = (ROk x, s1)
    | None => exists n x s2, loops sd e n s1 x s2 /\ data_call sd chunk e s = (ROk x, s2) /\
                N.of_nat n <= 16 * (chunk_size chunk + 2 * c_field_limit (e_cfg e) + 2)
    end.
Proof. exact loop_linear. Qed.
Print Assumptions C31_calls_terminate.
(** The loop is entered, and iterates. *)
Example C31_ex : let s := snd (history ok_env [OpOpen]) in
  (exists s1, begin_call SReq (bytes_chunk get1) ok_env s = (ROk None, s1)) /\
  (fst (data_loop SReq 4 ok_env (snd (begin_call SReq (bytes_chunk get1) ok_env s))) = RFuel) /\
  fst (data_call SReq (bytes_chunk get1) ok_env s) = ROk SsData.
Proof. vm_compute. eauto. Qed.

(** * C32 *)
Theorem C32_consumed_within_chunk : forall e l sd, Forall valid_op l ->
  d_consumed (s_dir sd (snd (history e l))) <= last_size sd l.
Proof.
  intros e l sd V. destruct (history_ok e l V) as (r & s & -> & _ & _ & A & B). destruct sd; [exact A|exact B].
Qed.
Print Assumptions C32_consumed_within_chunk.
(** The calls in which it matters: a response waiting for the other side. *)
Example C32_ex :
  let l := [OpOpen; OpReq (bytes_chunk (ln "CONNECT h:1 HTTP/1.1" ++ eol ++ s2b "xyz"))] in
  Forall valid_op l /\ d_consumed (s_dir SReq (snd (history ok_env l))) = 24 /\ last_size SReq l = 27.
Proof. split; [repeat constructor|]. vm_compute. auto. Qed.

(** * C33 *)
Theorem C33_retained_bounded : forall e l sd, Forall valid_op l ->
  retained (s_dir sd (snd (history e l))) <= c_field_limit (e_cfg e).
Proof.
  intros e l sd V. destruct (history_ok e l V) as (r & s & -> & A & B & _ & _). destruct sd; [apply A|apply B].
Qed.
Print Assumptions C33_retained_bounded.
Example C33_ex :
  let e := ex_env (set_c_field_limit 8 config_default) (fun _ _ => SOk) in
  retained (s_req (snd (history e [OpOpen; OpReq (bytes_chunk (s2b "GET /abc"))]))) = 8 /\
  retained (s_req (snd (history e [OpOpen; OpReq (bytes_chunk (s2b "GET /abc")); OpReq (bytes_chunk (s2b "d"))]))) = 8 /\
  fst (history e [OpOpen; OpReq (bytes_chunk (s2b "GET /abc")); OpReq (bytes_chunk (s2b "d"))]) = ROk [None; Some SsData; Some SsError].
Proof. vm_compute. repeat split; reflexivity. Qed.

(** * C34 *)
(** Once [request_data], given bytes, has returned ERROR, then after any further operations it returns ERROR for any chunk,
    and the call changes nothing a user sees. *)
Theorem C34_request_error_sticky : forall e l1 c l2 x r s1,
  Forall valid_op l1 -> valid_op (OpReq c) -> Forall valid_op l2 -> pd_is_gap c = false ->
  run_ops [OpReq c] e (snd (history e l1)) = (ROk r, s1) -> r = [Some SsError] -> fresh_chunk x = true ->
  exists s2 r2 s3, run_ops l2 e s1 = (ROk r2, s2) /\
    run_op (OpReq x) e s2 = (ROk (Some SsError), s3) /\ same_view s2 s3 /\ s_resp s3 = s_resp s2.
Proof. exact request_error_sticky. Qed.
Print Assumptions C34_request_error_sticky.
(** A callback fails on the request line. *)
Definition fails_at (h : hook) (x : status) : env :=
  ex_env config_default (fun _ ev => match ev_hook ev, h with HRequestLine, HRequestLine | HResponseHeaders, HResponseHeaders | HRequestStart, HRequestStart => x | _, _ => SOk end).
Example C34_ex : fst (run_ops [OpReq (bytes_chunk get1)] (fails_at HRequestLine SError) (snd (history (fails_at HRequestLine SError) [OpOpen]))) = ROk [Some SsError] /\
  fst (history (fails_at HRequestLine SError) [OpOpen; OpReq (bytes_chunk get1); OpReqClose; OpResp (bytes_chunk resp1); OpReq (bytes_chunk get1); OpReq (gap_of 3)]) =
    ROk [None; Some SsError; None; Some SsData; Some SsError; Some SsError].
Proof. vm_compute. repeat split; reflexivity. Qed.
(** Findings. An ERROR returned for a gap (the transaction table is full) is forgotten. *)
Definition tiny : env := ex_env (set_c_max_tx 1 config_default) (fun _ _ => SOk).
Theorem C34_gap_error_refuted : ~ forall e l1 c l2 x r s1,
  Forall valid_op l1 -> valid_op (OpReq c) -> Forall valid_op l2 ->
  run_ops [OpReq c] e (snd (history e l1)) = (ROk r, s1) -> r = [Some SsError] -> fresh_chunk x = true ->
  exists s2 r2 s3, run_ops l2 e s1 = (ROk r2, s2) /\ run_op (OpReq x) e s2 = (ROk (Some SsError), s3).
Proof.
  intro H. destruct (H tiny [OpOpen; OpReq (bytes_chunk get1)] (gap_of 3) [OpRemove 0] (bytes_chunk get1) [Some SsError]
    (snd (run_ops [OpReq (gap_of 3)] tiny (snd (history tiny [OpOpen; OpReq (bytes_chunk get1)]))))) as (s2 & r2 & s3 & A & B).
  1-3: repeat constructor. 1-3: vm_compute; reflexivity.
  apply (f_equal snd) in A. change (snd (ROk r2, s2)) with s2 in A. rewrite <- A in B. apply (f_equal fst) in B.
  vm_compute in B. discriminate.
Qed.
Print Assumptions C34_gap_error_refuted.
(** A STOP is forgotten when the stream is closed, and the response side is not sticky: after a failed response, data on the
    request side of a CONNECT turns its ERROR into TUNNEL. *)
Theorem C34_stop_refuted : exists e l1 c, Forall valid_op l1 /\
  fst (run_ops [OpReq c] e (snd (history e l1))) = ROk [Some SsStop] /\
  fst (run_ops [OpReqClose; OpReq c] e (snd (run_ops [OpReq c] e (snd (history e l1))))) <> ROk [None; Some SsStop].
Proof.
  exists (ex_env config_default (fun s ev => match ev_hook ev with HRequestLine => if s_chunk_count s =? 1 then SStop else SOk | _ => SOk end)),
    [OpOpen], (bytes_chunk get1). split; [repeat constructor|]. vm_compute. split; [reflexivity|discriminate].
Qed.
Print Assumptions C34_stop_refuted.
Theorem C34_response_error_refuted : exists e l1 l2 c, Forall valid_op l1 /\ Forall valid_op l2 /\
  fst (run_ops [OpResp c] e (snd (history e l1))) = ROk [Some SsError] /\
  fst (run_op (OpResp c) e (snd (run_ops l2 e (snd (run_ops [OpResp c] e (snd (history e l1))))))) = ROk (Some SsTunnel).
Proof.
  exists (fails_at HResponseHeaders SError), [OpOpen; OpReq (bytes_chunk (ln "CONNECT h:1 HTTP/1.1" ++ eol))],
    [OpReq (bytes_chunk (ln "xyz"))], (bytes_chunk (ln "HTTP/1.1 200 OK" ++ eol)).
  split; [repeat constructor|]. split; [repeat constructor|]. vm_compute. split; reflexivity.
Qed.
Print Assumptions C34_response_error_refuted.

(** * C35 *)
(** An empty chunk to a stream that has not failed returns CLOSED and changes nothing; the two sides keep all their parsing
    state. No reachable state of a stream is CLOSED between calls ([C35_never_left_closed]). *)
Theorem C35_empty_chunk : forall e sd chunk s,
  chunk_size chunk = 0 -> fresh_chunk chunk = true ->
  refusing (s_dir sd s) = false -> d_status (s_dir sd s) <> SsClosed ->
  exists s', data_call sd chunk e s = (ROk SsClosed, s') /\ same_view s s' /\
    s_dir sd s' = set_d_consumed 0 (s_dir sd s) /\ s_dir (opp sd) s' = s_dir (opp sd) s.
Proof. exact empty_call. Qed.
Print Assumptions C35_empty_chunk.
Theorem C35_never_left_closed : forall e l sd, Forall valid_op l -> d_status (s_dir sd (snd (history e l))) <> SsClosed.
Proof.
  intros e l sd V. destruct (history_ok e l V) as (r & s & -> & A & B & _ & _). destruct sd; [apply A|apply B].
Qed.
Print Assumptions C35_never_left_closed.
(** A stream that has stopped or failed takes nothing, of any size. *)
Theorem C35_refusing_stream : forall e sd chunk s, refusing (s_dir sd s) = true ->
  exists s', data_call sd chunk e s = (ROk (d_status (s_dir sd s)), s') /\ same_view s s' /\
    s_dir sd s' = set_d_consumed 0 (s_dir sd s) /\ s_dir (opp sd) s' = s_dir (opp sd) s.
Proof. exact refused_call. Qed.
Print Assumptions C35_refusing_stream.
(** A gap where none can be skipped: no callback runs, no other transaction changes, the parser stays where it was; the
    current transaction (begun if need be) is marked, or, before the first byte of the first message, its progress becomes
    GAP and the stream fails. *)
Theorem C35_refused_gap : forall e sd chunk g s,
  pd_gap chunk = Some g -> g <> 0 -> fresh_chunk chunk = true ->
  (forall x, In x [SsStop; SsError; SsTunnel; SsClosed] -> d_status (s_dir sd s) <> x) ->
  ~ skips_gaps sd (d_state (s_dir sd s)) ->
  exists x s', data_call sd chunk e s = (ROk x, s') /\ same_but sd s s' /\
    let now := tx_get (s_idx sd s) (s_txs s') in
    let was := match tx_get (s_idx sd s) (s_txs s) with Some t => t | None => tx_new end in
    ((x = SsClosed /\ now = Some (told_missing sd was)) \/
     (x = SsError /\ s_ridx s = 0 /\ t_prog (x_dir sd was) = PNotStarted /\ now = Some (upd_dir sd (set_t_prog PGap) (told_missing sd was))) \/
     (x = SsError /\ now = None /\ s_txs s' = s_txs s /\ c_max_tx (e_cfg e) <= N.of_nat (length (s_txs s)))).
Proof. exact refused_gap. Qed.
Print Assumptions C35_refused_gap.
(** All three outcomes, and the hypotheses, occur. *)
Example C35_ex :
  fst (history ok_env [OpOpen; OpReq (bytes_chunk (s2b "GET")); OpReq (bytes_chunk []); OpReq (gap_of 4)]) = ROk [None; Some SsData; Some SsClosed; Some SsClosed] /\
  d_state (s_req (snd (history ok_env [OpOpen; OpReq (bytes_chunk (s2b "GET"))]))) = StLine /\
  fst (history ok_env [OpOpen; OpReq (gap_of 4)]) = ROk [None; Some SsError] /\
  fst (history tiny [OpOpen; OpReq (bytes_chunk get1); OpReq (gap_of 3)]) = ROk [None; Some SsData; Some SsError].
Proof. vm_compute. repeat split; reflexivity. Qed.

(** * C36 *)
Theorem C36_tunnel_untouched : forall e sd chunk s,
  chunk_size chunk <> 0 -> fresh_chunk chunk = true -> d_status (s_dir sd s) = SsTunnel ->
  exists s', data_call sd chunk e s = (ROk SsTunnel, s') /\
    s_txs s' = s_txs s /\ seen s' = seen s /\ s_logs s' = s_logs s /\
    counter sd s' = (counter sd s + chunk_size chunk) mod 2 ^ 64 /\ counter (opp sd) s' = counter (opp sd) s /\
    s_dir sd s' = set_d_consumed 0 (s_dir sd s) /\ s_dir (opp sd) s' = s_dir (opp sd) s.
Proof. exact tunnel_call. Qed.
Print Assumptions C36_tunnel_untouched.
Definition tunnel_ops : list op :=
  [OpOpen; OpReq (bytes_chunk (ln "CONNECT h:1 HTTP/1.1" ++ eol)); OpResp (bytes_chunk (ln "HTTP/1.1 200 OK" ++ eol)); OpReq (bytes_chunk (ln "xyz"))].
Example C36_ex : let s := snd (history ok_env tunnel_ops) in d_status (s_req s) = SsTunnel /\ d_status (s_resp s) = SsTunnel.
Proof. vm_compute. repeat split; reflexivity. Qed.
(** Finding: closing ends the tunnel; what follows is parsed as HTTP again. *)
Theorem C36_close_ends_tunnel : exists e l c, Forall valid_op l /\
  d_status (s_req (snd (history e l))) = SsTunnel /\
  fst (run_ops [OpReqClose; OpReq c] e (snd (history e l))) = ROk [None; Some SsData] /\
  length (s_txs (snd (run_ops [OpReqClose; OpReq c] e (snd (history e l))))) = S (length (s_txs (snd (history e l)))).
Proof.
  exists ok_env, tunnel_ops, (bytes_chunk get1). split; [repeat constructor|]. vm_compute. auto.
Qed.
Print Assumptions C36_close_ends_tunnel.

(** * C43 *)
(** [accepted]: the bytes of the chunks handed to a side that had not stopped or failed. *)
Theorem C43_counters : forall e sd l, Forall valid_op l ->
  counter sd (snd (history e l)) = accepted sd e st_new l mod 2 ^ 64.
Proof. exact history_counters. Qed.
Print Assumptions C43_counters.
Example C43_ex : counter SReq (snd (history ok_env ex_ops)) = 34 /\ counter SResp (snd (history ok_env ex_ops)) = 46.
Proof. vm_compute. repeat split; reflexivity. Qed.
