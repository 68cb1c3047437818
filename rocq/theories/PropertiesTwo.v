(** Properties C50 (second part), C70 and C71 of properties.jsonl: the same history run twice. Vocabulary: SpecTwo.v, SpecLimit.v. *)
From Verif Require Import Base ModelState ModelTx ModelConn SpecConn SpecTwo SpecLimit ProofsTwoRuns ProofsLimit PropertiesConn.

(** * C50 *)
(** A lower log level filters the log, and nothing else: whatever the callbacks answer. *)
Theorem C50_log_level_filters : forall e L l, L <= c_log_level (e_cfg e) -> log_blind e ->
  history (with_level L e) l = (fst (history e l), set_s_logs (up_to L (s_logs (snd (history e l)))) (snd (history e l))).
Proof. exact level_filters. Qed.
Print Assumptions C50_log_level_filters.
(** OK and DECLINED are the same answer, also in histories in which other callbacks refuse. *)
Theorem C50_declined_is_ok : forall e cb l,
  (forall s s' ev, unanswered s = unanswered s' -> same_answer ev (e_cb e s ev) (cb s' ev)) ->
  (forall s s' dc d, unanswered s = unanswered s' -> e_codec e s dc d = e_codec e s' dc d) ->
  fst (history (with_callbacks cb e) l) = fst (history e l) /\ unanswered (snd (history (with_callbacks cb e) l)) = unanswered (snd (history e l)).
Proof. exact answers_alike. Qed.
Print Assumptions C50_declined_is_ok.
(** One callback stops the connection, the others do not care. *)
Definition picky (x : status) (_ : st) (ev : event) : status := match ev_hook ev with HRequestHeaders => SStop | HParam => SOk | _ => x end.
Example C50_ex_two :
  log_blind (ex_env config_default (picky SOk)) /\ (forall s s' ev, unanswered s = unanswered s' -> same_answer ev (picky SOk s ev) (picky SDeclined s' ev)) /\
  fst (history (ex_env config_default (picky SDeclined)) ex_ops) = ROk [None; Some SsStop; Some SsData; Some SsError; None] /\
  s_trace (snd (history (ex_env config_default (picky SDeclined)) ex_ops)) <> s_trace (snd (history (ex_env config_default (picky SOk)) ex_ops)) /\
  map lg_code (rev (s_logs (snd (history ok_env [OpOpen; OpReq (bytes_chunk (ln "GET / HTTP/1.1" ++ eol)); OpOpen])))) = ["CONNECTION_ALREADY_OPEN"]%string.
Proof.
  split; [split; reflexivity|]. split; [|vm_compute; repeat split; try reflexivity; discriminate].
  intros s s' ev _. unfold picky, same_answer. destruct (ev_hook ev) eqn:E; try (left; reflexivity); right; (split; [discriminate|]); auto.
Qed.

(** * C70 *)
(** Closing with flushing configured does all that closing without it does, then runs TRANSACTION_COMPLETE exactly once for every transaction
    that has begun and is not complete, and nothing else; with auto-destroy exactly these transactions are dropped. *)
Theorem C70_close_flushes : forall e l, Forall valid_op l -> c_flush (e_cfg e) = true ->
  exists s1 new is X,
    run_op OpClose (with_flush false e) (snd (history e l)) = (ROk None, s1) /\
    run_op OpClose e (snd (history e l)) = (ROk None, set_s_txs X (set_s_trace (rev new ++ s_trace s1) s1)) /\
    NoDup is /\ (forall i, In i is <-> unfinished s1 i) /\ map fst new = map (fun i => mk_ev HTransactionComplete i PlNone) is /\
    (c_auto_destroy (e_cfg e) = false -> X = s_txs s1) /\
    (c_auto_destroy (e_cfg e) = true -> forall i, (unfinished s1 i -> tx_get i X = None) /\ (~ unfinished s1 i -> tx_get i X = tx_get i (s_txs s1))).
Proof. exact close_flushes. Qed.
Print Assumptions C70_close_flushes.
(** Three requests, one response: two transactions are reported, and dropped if so configured. (The fourth has not begun.). *)
Definition flushed (auto : bool) : st :=
  snd (history (ex_env (set_c_flush true (set_c_auto_destroy auto config_default)) (fun _ _ => SOk)) [OpOpen; OpReq (bytes_chunk (get1 ++ get1 ++ get1)); OpResp (bytes_chunk resp1); OpClose]).
Example C70_ex : Forall valid_op [OpOpen; OpReq (bytes_chunk (get1 ++ get1 ++ get1)); OpResp (bytes_chunk resp1)] /\
  map (fun x => (ev_hook (fst x), ev_tx (fst x))) (firstn 2 (s_trace (flushed false))) = [(HTransactionComplete, 2); (HTransactionComplete, 1)] /\
  map fst (s_txs (flushed false)) = [0; 1; 2; 3] /\ map fst (s_txs (flushed true)) = [3].
Proof. split; [repeat constructor|]. vm_compute. repeat split; reflexivity. Qed.

(** * C71 *)
(** If no limit is reported as exceeded, any higher limits give the same results, callbacks, transactions and log. *)
Theorem C71_limits_matter_when_exceeded : forall e e' l, looser e e' -> LvWarning <= c_log_level (e_cfg e) ->
  ~ exceeded (s_logs (snd (history e l))) -> history e' l = history e l.
Proof. exact limits_matter_when_exceeded. Qed.
Print Assumptions C71_limits_matter_when_exceeded.
(** Finding: this does not extend to the compression ratio. A product that overflows counts as exceeded, so a higher ratio can be the stricter one. *)
Theorem C71_higher_ratio_refuted : exists c r d, c_bomb_ratio c < r /\ bomb c d = false /\ bomb (set_c_bomb_ratio r c) d = true.
Proof.
  exists (set_c_bomb_limit 100 (set_c_bomb_ratio 8 config_default)), (2 ^ 62), (set_t_mlen 1000 (set_t_elen 2000 txdir_new)). vm_compute. auto.
Qed.
Print Assumptions C71_higher_ratio_refuted.
(** A long request line, within a field limit of 40 bytes but not of 20. *)
Definition long_ops : list op := [OpOpen; OpReq (bytes_chunk (s2b "GET /0123456789012")); OpReq (bytes_chunk (ln "3456 HTTP/1.1" ++ eol))].
Definition limited (n : N) : env := ex_env (set_c_field_limit n config_default) (fun _ _ => SOk).
Example C71_ex : looser (limited 40) (limited 50) /\ LvWarning <= c_log_level (e_cfg (limited 40)) /\
  map lg_code (s_logs (snd (history (limited 40) long_ops))) = [] /\ fst (history (limited 40) long_ops) = ROk [None; Some SsData; Some SsData] /\
  map lg_code (s_logs (snd (history (limited 20) long_ops))) = ["REQUEST_FIELD_TOO_LONG"]%string.
Proof.
  split; [|vm_compute; repeat split; try reflexivity; discriminate].
  exists 50, (c_bomb_limit config_default), (c_layer_limit config_default), (c_lzma_layers config_default).
  split; [reflexivity|]. split; [vm_compute; discriminate|]. split; [vm_compute; discriminate|]. split; eexists; (split; [reflexivity|vm_compute; discriminate]).
Qed.
