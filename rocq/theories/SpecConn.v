(** Vocabulary of the property statements about whole connections. Nothing here refers to the way the parser works: only to the
    operations of a history, the observable state (callback trace, counters, transactions) and the configuration. *)
From Coq Require Import Relations.
From Verif Require Import Base ModelState ModelTx ModelConn.

(** * Histories *)
(** A chunk as a user hands it over: bytes or a gap of some size. *)
Definition chunk_size (p : pdata) : N :=
  match pd_gap p with Some g => g | None => match pd_data p with Some d => blen d | None => 0 end end.
Definition valid_op (o : op) : Prop := match o with OpReq c | OpResp c => fresh_chunk c = true | _ => True end.
(** The size of the last chunk given to one side; closing gives it an empty one. *)
Definition last_size1 (sd : side) (n : N) (o : op) : N :=
  match o, sd with
  | OpReq c, SReq => chunk_size c
  | OpResp c, SResp => chunk_size c
  | OpReqClose, SReq => 0
  | OpClose, _ => 0
  | _, _ => n
  end.
Definition last_size (sd : side) (l : list op) : N := fold_left (last_size1 sd) l 0.
(** The bytes kept for an unfinished line and an unfinished header. *)
Definition retained (d : dir) : N := blen (d_buf d) + match d_header d with Some h => blen h | None => 0 end.

(** * Byte counters *)
(** A stream that takes no more data. *)
Definition refusing (d : dir) : bool := match d_status d with SsStop | SsError => true | _ => false end.
Definition to_side (sd : side) (o : op) : option pdata :=
  match sd, o with SReq, OpReq c => Some c | SResp, OpResp c => Some c | _, _ => None end.
(** The bytes of the chunks given to one side while it was taking data, from a state on. *)
Fixpoint accepted (sd : side) (e : env) (s : st) (l : list op) : N :=
  match l with
  | [] => 0
  | o :: r =>
      match to_side sd o with
      | Some c => if refusing (s_dir sd s) then 0 else chunk_size c
      | None => 0
      end + accepted sd e (snd (run_op o e s)) r
  end.
Definition counter (sd : side) (s : st) : N := match sd with SReq => s_in s | SResp => s_out s end.

(** * The transaction table *)
Definition table (s : st) : N * N * list (N * tx) := (s_ridx s, s_pidx s, s_txs s).
(** What can happen to it: a transaction is begun while there is room, changed, dropped when auto-destroy is on and both its
    directions are complete; an index moves on by one (modulo 2^64). *)
Inductive table_step (c : config) : N * N * list (N * tx) -> N * N * list (N * tx) -> Prop :=
| TsBegin : forall r p l i, tx_get i l = None -> N.of_nat (length l) < c_max_tx c ->
    table_step c (r, p, l) (r, p, tx_put i tx_new l)
| TsChange : forall r p l i t, table_step c (r, p, l) (r, p, tx_set i t l)
| TsDrop : forall r p l i t, c_auto_destroy c = true -> tx_get i l = Some t -> is_complete t = true ->
    table_step c (r, p, l) (r, p, tx_del i l)
| TsRequest : forall r p l, table_step c (r, p, l) ((r + 1) mod 2 ^ 64, p, l)
| TsResponse : forall r p l, table_step c (r, p, l) (r, (p + 1) mod 2 ^ 64, l).
Definition table_run (c : config) : N * N * list (N * tx) -> N * N * list (N * tx) -> Prop := clos_refl_trans _ (table_step c).

(** * The loop of one call *)
(** What a data call does before it iterates; [Some x]: it returns [x] at once. *)
Definition begin_call (sd : side) (chunk : pdata) : M (option sstate) :=
  modify (set_s_input chunk) ;;
  upd_d sd (set_d_consumed 0) ;;
  let* d := get_d sd in
  match d_status d with
  | SsStop => log LvInfo "PARSER_STATE_ERROR" ;; ret (Some SsStop)
  | SsError => log LvError "PARSER_STATE_ERROR" ;; ret (Some SsError)
  | _ =>
      if pd_is_empty chunk && negb (sstate_eqb (d_status d) SsClosed) then
        log LvError "ZERO_LENGTH_DATA_CHUNKS" ;; ret (Some SsClosed)
      else
        modify (count_data sd (pd_len chunk)) ;;
        if sstate_eqb (d_status d) SsTunnel then ret (Some SsTunnel)
        else
          by_side sd (let* r := get_d SResp in when (sstate_eqb (d_status r) SsDataOther) (set_status SResp SsData)) (ret tt) ;;
          if pd_is_gap chunk then mark_gap sd else ret None
  end.
(** [loops sd e n s x s']: from [s] the loop, with no limit on its iterations, ends in [s'] with the result [x] after exactly
    [n] iterations. *)
Inductive loops (sd : side) (e : env) : nat -> st -> sstate -> st -> Prop :=
| LoopsLast : forall s x s', step sd e s = (ROk (Some x), s') -> loops sd e 1 s x s'
| LoopsMore : forall s s1 n x s', step sd e s = (ROk None, s1) -> loops sd e n s1 x s' -> loops sd e (S n) s x s'.

(** * Gaps *)
(** The parts of a message in which missing bytes can be skipped. *)
Definition skips_gaps (sd : side) (x : pstate) : Prop :=
  match sd with
  | SReq => x = StIdentity \/ x = StIgnore09 \/ x = StFinalize
  | SResp => x = StClKnown \/ x = StStreamClose \/ x = StFinalize
  end.
(** A transaction that is told about missing bytes. *)
Definition told_missing (sd : side) (t : tx) : tx :=
  set_x_flags (fset (x_flags t) (match sd with SReq => REQUEST_MISSING_BYTES | SResp => RESPONSE_MISSING_BYTES end)) t.
(** Everything of a state that a user sees except the transactions, the log and the byte counters: the callbacks that ran, both
    indices and the connection flags. *)
Definition seen (s : st) := (s_trace s, s_ridx s, s_pidx s, s_cflags s).
(** Nothing a user sees has changed. *)
Definition same_view (s s' : st) : Prop :=
  s_txs s' = s_txs s /\ seen s' = seen s /\ s_in s' = s_in s /\ s_out s' = s_out s.
(** Nothing has changed but the current transaction of one side (and log, counters, status). *)
Definition same_but (sd : side) (s s' : st) : Prop :=
  seen s' = seen s /\ (forall i, i <> s_idx sd s -> tx_get i (s_txs s') = tx_get i (s_txs s)) /\
  d_state (s_dir sd s') = d_state (s_dir sd s) /\ d_buf (s_dir sd s') = d_buf (s_dir sd s).

(** * Accepting callbacks *)
(** The callbacks that have run, oldest first, without their answers. *)
Definition events (s : st) : list event := rev (map fst (s_trace s)).
(** A state without its log and trace; two states are [similar] when they agree but for the log and the callbacks' answers. *)
Definition bare (s : st) : st := set_s_logs [] (set_s_trace [] s).
Definition similar (s s' : st) : Prop := bare s = bare s' /\ events s = events s'.
(** Every callback answers OK or DECLINED (a parameter callback: OK), and the decompressors look neither at the log nor at
    the trace. *)
Definition accepting (e : env) : Prop :=
  (forall s ev, e_cb e s ev = SOk \/ (ev_hook ev <> HParam /\ e_cb e s ev = SDeclined)) /\
  (forall s dc b, e_codec e s dc b = e_codec e (bare s) dc b).
(** The environment with its callbacks and its log level left out; [alike]: equal otherwise. *)
Definition mute (e : env) : env := mk_env (set_c_log_level 0 (e_cfg e)) (fun _ _ => SOk) (e_codec e) (e_ip6 e) (e_b64 e).
Definition alike (e e' : env) : Prop := mute e = mute e'.

(** * Callbacks that refuse *)
(** The hooks whose answer the parser always heeds. Not among them: REQUEST_START, the raw header and trailer data, and the
    body data, which may come out of a decompressor. *)
Definition heeded (h : hook) : bool :=
  match h with
  | HRequestLine | HRequestUriNormalize | HRequestHeaders | HRequestTrailer | HRequestComplete | HParam
  | HResponseStart | HResponseLine | HResponseHeaders | HResponseTrailer | HResponseComplete | HTransactionComplete => true
  | _ => false
  end.
Definition body_hook (h : hook) : bool :=
  match h with HRequestBody | HRequestBodyTx | HResponseBody | HResponseBodyTx => true | _ => false end.
(** Decompressors that never produce anything. *)
Definition no_decompression (e : env) : Prop := forall s dc b, exists ok slow, e_codec e s dc b = DRet ok slow.
