(** The connection parser: the request and response state machines and the calls a user makes.
    A handler is a state transformer with an error result ([M]); what a Rust function leaves in the parser when it returns
    an error is kept. A call of [unwrap] on None and a slice out of range are [RPanic], a loop that would need
    more steps than it is given is [RFuel]; both are shown never to happen. *)
From Verif Require Export ModelTx.

Inductive res (A : Type) := ROk (a : A) | RErr (s : status) | RPanic | RFuel.
Arguments ROk {A}. Arguments RErr {A}. Arguments RPanic {A}. Arguments RFuel {A}.
Definition M (A : Type) : Type := env -> st -> res A * st.
Definition ret {A} (a : A) : M A := fun _ s => (ROk a, s).
Definition bind {A B} (m : M A) (k : A -> M B) : M B := fun e s =>
  match m e s with
  | (ROk a, s') => k a e s'
  | (RErr x, s') => (RErr x, s')
  | (RPanic, s') => (RPanic, s')
  | (RFuel, s') => (RFuel, s')
  end.
Notation "'let*' x := m 'in' k" := (bind m (fun x => k)) (at level 200, x pattern, m at level 100, k at level 200, right associativity).
Notation "m ;; k" := (bind m (fun _ => k)) (at level 100, k at level 200, right associativity).
Definition fail {A} (x : status) : M A := fun _ s => (RErr x, s).
Definition panic {A} : M A := fun _ s => (RPanic, s).
Definition out_of_fuel {A} : M A := fun _ s => (RFuel, s).
(** [let _ = m;] and [m.ok();]: the result is ignored. *)
Definition ignore {A} (m : M A) : M unit := fun e s =>
  match m e s with
  | (ROk _, s') | (RErr _, s') => (ROk tt, s')
  | (RPanic, s') => (RPanic, s')
  | (RFuel, s') => (RFuel, s')
  end.
(** [let rc = m;]: the result is kept for later. *)
Definition try {A} (m : M A) : M (A + status) := fun e s =>
  match m e s with
  | (ROk a, s') => (ROk (inl a), s')
  | (RErr x, s') => (ROk (inr x), s')
  | (RPanic, s') => (RPanic, s')
  | (RFuel, s') => (RFuel, s')
  end.
Definition get : M st := fun _ s => (ROk s, s).
Definition ask : M env := fun e s => (ROk e, s).
Definition modify (f : st -> st) : M unit := fun _ s => (ROk tt, f s).
Definition when (b : bool) (m : M unit) : M unit := if b then m else ret tt.
Fixpoint for_each {A} (f : A -> M unit) (l : list A) : M unit :=
  match l with
  | [] => ret tt
  | a :: r => f a ;; for_each f r
  end.

(** One direction's fields of the parser. *)
Definition s_dir (sd : side) (s : st) : dir := match sd with SReq => s_req s | SResp => s_resp s end.
Definition set_s_dir (sd : side) (v : dir) (s : st) : st := match sd with SReq => set_s_req v s | SResp => set_s_resp v s end.
Definition upd_d (sd : side) (f : dir -> dir) : M unit := modify (fun s => set_s_dir sd (f (s_dir sd s)) s).
Definition get_d (sd : side) : M dir := fun _ s => (ROk (s_dir sd s), s).
Definition set_state (sd : side) (x : pstate) : M unit := upd_d sd (set_d_state x).
Definition set_status (sd : side) (x : sstate) : M unit := upd_d sd (set_d_status x).
Definition s_idx (sd : side) (s : st) : N := match sd with SReq => s_ridx s | SResp => s_pidx s end.
Definition by_side {A} (sd : side) (a b : A) : A := match sd with SReq => a | SResp => b end.

(** src/log.rs:206-218 and the macros 284-320: a message above the configured level is dropped. *)
Definition log (lv : N) (c : string) : M unit := fun e s =>
  (ROk tt, if lv <=? c_log_level (e_cfg e) then set_s_logs (mk_log lv c :: s_logs s) s else s).
Definition logs (l : list logmsg) : M unit := for_each (fun m => log (lg_level m) (lg_code m)) l.

(** * src/connection_parser.rs:85-203, [ParserData] *)
(** 107-114 *)
Definition pd_unconsumed (p : pdata) : option bytes :=
  match pd_data p with
  | Some d => if pd_pos p <=? blen d then Some (skipn (N.to_nat (pd_pos p)) d) else None
  | None => None
  end.
(** 135-142 *)
Definition pd_as_slice (p : pdata) : bytes := match pd_unconsumed p with Some d => d | None => [] end.
(** 117-127 *)
Definition pd_len (p : pdata) : N :=
  match pd_gap p with
  | Some g => if g <=? pd_pos p then 0 else g - pd_pos p
  | None => blen (pd_as_slice p)
  end.
Definition pd_is_gap (p : pdata) : bool := is_some (pd_gap p).
Definition pd_is_empty (p : pdata) : bool := pd_len p =? 0.
(** 160-172 *)
Definition pd_consume (n : N) (p : pdata) : pdata := set_pd_pos (pd_pos p + n) p.
Definition pd_unconsume (n : N) (p : pdata) : pdata := set_pd_pos (if n <? pd_pos p then pd_pos p - n else 0) p.
(** 188-197 *)
Definition pd_callback_data (p : pdata) : bytes * pdata :=
  match pd_data p with
  | Some d =>
      if (pd_pos p <=? blen d) && (pd_cb p <=? pd_pos p)
      then (firstn (N.to_nat (pd_pos p - pd_cb p)) (skipn (N.to_nat (pd_cb p)) d), set_pd_cb (pd_pos p) p)
      else ([], p)
  | None => ([], p)
  end.

Definition input : M pdata := fun _ s => (ROk (s_input s), s).
Definition slice : M bytes := fun _ s => (ROk (pd_as_slice (s_input s)), s).
(** src/connection_parser.rs:558-586, request_data_consume and its three siblings. *)
Definition set_input (sd : side) (p : pdata) : M unit :=
  modify (set_s_input p) ;; upd_d sd (set_d_consumed (pd_pos p)).
Definition consume (sd : side) (n : N) : M unit := let* p := input in set_input sd (pd_consume n p).
Definition unconsume (sd : side) (n : N) : M unit := let* p := input in set_input sd (pd_unconsume n p).
(** [&input.as_slice()[0..n]] *)
Definition slice_to (n : N) : M bytes :=
  let* d := slice in if n <=? blen d then ret (firstn (N.to_nat n) d) else panic.

(** * src/transactions.rs; the map is a list ordered by index *)
Fixpoint tx_get (i : N) (l : list (N * tx)) : option tx :=
  match l with
  | [] => None
  | (j, t) :: r => if i =? j then Some t else tx_get i r
  end.
Fixpoint tx_put (i : N) (t : tx) (l : list (N * tx)) : list (N * tx) :=
  match l with
  | [] => [(i, t)]
  | (j, u) :: r => if i =? j then (i, t) :: r else if i <? j then (i, t) :: (j, u) :: r else (j, u) :: tx_put i t r
  end.
Fixpoint tx_del (i : N) (l : list (N * tx)) : list (N * tx) :=
  match l with
  | [] => []
  | (j, u) :: r => if i =? j then r else (j, u) :: tx_del i r
  end.
(** A change through the reference to a transaction that is in the map. *)
Fixpoint tx_set (i : N) (t : tx) (l : list (N * tx)) : list (N * tx) :=
  match l with
  | [] => []
  | (j, u) :: r => if i =? j then (j, t) :: r else (j, u) :: tx_set i t r
  end.
Definition put_tx (i : N) (t : tx) : M unit := modify (fun s => set_s_txs (tx_set i t (s_txs s)) s).
(** 52-104: request, request_mut, response and response_mut. *)
Definition cur_tx (sd : side) : M (option tx) := fun e s =>
  match tx_get (s_idx sd s) (s_txs s) with
  | Some t => (ROk (Some t), s)
  | None =>
      if c_max_tx (e_cfg e) <=? N.of_nat (length (s_txs s)) then (ROk None, s)
      else (ROk (Some tx_new), set_s_txs (tx_put (s_idx sd s) tx_new (s_txs s)) s)
  end.
(** [if req.is_none() { return Err(HtpStatus::ERROR); }] *)
Definition need_tx (sd : side) : M tx := let* o := cur_tx sd in match o with Some t => ret t | None => fail SError end.
(** [request_mut().unwrap()] *)
Definition the_tx (sd : side) : M tx := let* o := cur_tx sd in match o with Some t => ret t | None => panic end.
Definition mod_tx (sd : side) (f : tx -> tx) : M unit :=
  let* t := the_tx sd in let* s := get in put_tx (s_idx sd s) (f t).
Definition mod_tx_log (sd : side) (f : tx -> tx * list logmsg) : M unit :=
  let* t := the_tx sd in
  let '(t', lg) := f t in
  let* s := get in put_tx (s_idx sd s) t' ;; logs lg.
Definition mod_txd (sd : side) (f : txdir -> txdir) : M unit := mod_tx sd (upd_dir sd f).
Definition set_progress (sd : side) (p : progress) : M unit := mod_txd sd (set_t_prog p).
(** 125-134 *)
Definition check_free (i : N) : M unit := fun e s =>
  (ROk tt,
   if c_auto_destroy (e_cfg e) then
     match tx_get i (s_txs s) with
     | Some t => if is_complete t then set_s_txs (tx_del i (s_txs s)) s else s
     | None => s
     end
   else s).
(** src/connection_parser.rs:431-447 with src/transactions.rs:109-122. *)
Definition request_next : M unit :=
  let* s := get in
  when (s_pidx s <? s_ridx s) (modify (fun s => set_s_cflags (N.lor (s_cflags s) 1) s)) ;;
  check_free (s_ridx s) ;;
  modify (fun s => set_s_ridx (wadd (s_ridx s) 1) s).
Definition response_next : M unit :=
  let* s := get in
  check_free (s_pidx s) ;;
  modify (fun s => set_s_pidx (wadd (s_pidx s) 1) s).
(** 32-44 *)
Definition tx_size (s : st) : N :=
  let i := N.max (s_ridx s) (s_pidx s) in
  match tx_get i (s_txs s) with
  | Some t => wadd i (if is_started t then 1 else 0)
  | None => i
  end.

(** * src/hook.rs *)
(** All the callbacks of one hook count as one: its answer is the first one that is neither OK nor DECLINED, if any
    (see [run_all] in ModelHook.v). *)
Definition call (h : hook) (i : N) (d : payload) : M status := fun e s =>
  let ev := mk_ev h i d in
  let r := e_cb e s ev in
  (ROk r, set_s_trace ((ev, r) :: s_trace s) s).
Definition check (r : status) : M unit := match r with SOk | SDeclined => ret tt | _ => fail r end.
(** 100-119 *)
Definition data_hook (h : hook) (i : N) (d : payload) : M unit := let* r := call h i d in check r.
(** 70-92 *)
Definition tx_hook (h : hook) (i : N) : M unit :=
  let* s := get in
  match tx_get i (s_txs s) with
  | Some _ => let* r := call h i PlNone in check r
  | None => ret tt
  end.

(** * Raw data receivers: src/request.rs:134-195, src/response.rs:30-94 *)
Definition receiver_send_data (sd : side) : M unit :=
  let* p := input in
  let '(d, p') := pd_callback_data p in
  modify (set_s_input p') ;;
  need_tx sd ;;
  let* s := get in
  match d_recv (s_dir sd s) with
  | Some h => data_hook h (s_idx sd s) (PlData d)
  | None => ret tt
  end.
Definition receiver_finalize_clear (sd : side) : M unit :=
  let* d := get_d sd in
  match d_recv d with
  | None => ret tt
  | Some _ =>
      let* rc := try (receiver_send_data sd) in
      upd_d sd (set_d_recv None) ;;
      match rc with inl _ => ret tt | inr x => fail x end
  end.
Definition handle_state_change (sd : side) : M unit :=
  let* d := get_d sd in
  if pstate_eqb (d_prev d) (d_state d) then ret tt
  else
    (if pstate_eqb (d_state d) StHeaders then
       let* t := by_side sd (the_tx SReq) (need_tx SResp) in
       modify (fun s => set_s_input (set_pd_cb (pd_pos (s_input s)) (s_input s)) s) ;;
       match t_prog (x_dir sd t) with
       | PHeaders => upd_d sd (set_d_recv (Some (by_side sd HRequestHeaderData HResponseHeaderData)))
       | PTrailer => upd_d sd (set_d_recv (Some (by_side sd HRequestTrailerData HResponseTrailerData)))
       | _ => ret tt
       end
     else ret tt) ;;
    upd_d sd (set_d_prev (d_state d)).

(** src/request.rs:200-224, src/response.rs:99-123. The sum cannot wrap: it counts bytes held in memory. *)
Definition check_buffer_limit (sd : side) (len : N) : M unit :=
  if len =? 0 then ret tt
  else
    let* d := get_d sd in
    let* e := ask in
    let newlen := blen (d_buf d) + len + match d_header d with Some h => blen h | None => 0 end in
    if c_field_limit (e_cfg e) <? newlen
    then log LvError (by_side sd "REQUEST_FIELD_TOO_LONG" "RESPONSE_FIELD_TOO_LONG")%string ;; fail SError
    else ret tt.
(** src/request.rs:1438-1443, src/response.rs:1605-1610. *)
Definition absent_lf (sd : side) : M unit :=
  let* p := input in
  check_buffer_limit sd (pd_len p) ;;
  upd_d sd (fun d => set_d_buf (d_buf d ++ pd_as_slice p) d) ;;
  consume sd (pd_len p) ;;
  fail SDataBuffer.
(** [std::mem::take(&mut self.request_buf)] *)
Definition take_buf (sd : side) : M bytes :=
  let* d := get_d sd in upd_d sd (set_d_buf []) ;; ret (d_buf d).
Definition check_limit_if_buffered (sd : side) (len : N) : M unit :=
  let* d := get_d sd in when (negb (is_nil (d_buf d))) (check_buffer_limit sd len).

(** * Body data *)
Definition payload_len (d : payload) : N := match d with PlData b => blen b | PlGap n => n | _ => 0 end.
(** src/request.rs:1446-1456: empty data is skipped, the end-of-body signal is not.
    src/response.rs:1451-1462: everything of length 0 is skipped. *)
Definition run_hook_body_data (sd : side) (d : payload) : M unit :=
  by_side sd (the_tx SReq ;; ret tt) (ret tt) ;;
  let skip := match sd, d with SReq, PlData b => is_nil b | SReq, _ => false | SResp, _ => payload_len d =? 0 end in
  if skip then ret tt
  else
    the_tx sd ;;
    let* s := get in
    data_hook (by_side sd HRequestBodyTx HResponseBodyTx) (s_idx sd s) d ;;
    data_hook (by_side sd HRequestBody HResponseBody) (s_idx sd s) d.
Definition opt_payload (d : option bytes) : payload := match d with Some b => PlData b | None => PlNone end.
Definition opt_len (d : option bytes) : N := match d with Some b => blen b | None => 0 end.
Definition add_mlen (sd : side) (n : N) : M unit := mod_txd sd (fun d => set_t_mlen (wadd (t_mlen d) n) d).
Definition add_elen (sd : side) (n : N) : M unit := mod_txd sd (fun d => set_t_elen (wadd (t_elen d) n) d).

(** src/request.rs:1272-1334, src/response.rs:1253-1313. The decompressor is out of its slot while it runs, so lines
    1289-1303 (1268-1282) do nothing. The result: whether the callback succeeds. *)
Definition bomb (cfg : config) (d : txdir) : bool :=
  let product := t_mlen d * c_bomb_ratio cfg in
  (c_bomb_limit cfg <? t_elen d) && ((u64_mod <=? product) || (product <? t_elen d)).
Definition decompressor_callback (sd : side) (d : option bytes) : M bool :=
  add_elen sd (opt_len d) ;;
  let* rc := try (run_hook_body_data sd (opt_payload d)) in
  match rc with
  | inr _ => ret false
  | inl _ =>
      let* t := the_tx sd in
      let* e := ask in
      if bomb (e_cfg e) (x_dir sd t) then log LvError "COMPRESSION_BOMB" ;; ret false else ret true
  end.
Fixpoint run_tree (sd : side) (t : dtree) : M (bool * bool) :=
  match t with
  | DRet ok slow => ret (ok, slow)
  | DCall d k => let* b := decompressor_callback sd d in run_tree sd (k b)
  end.

(** src/request.rs:1004-1081, src/response.rs:1022-1094. *)
Definition body_data (sd : side) (data : option bytes) : M unit :=
  need_tx sd ;;
  add_mlen sd (opt_len data) ;;
  let* t := the_tx sd in
  match t_cep (x_dir sd t) with
  | CeGzip | CeDeflate | CeZlib | CeLzma =>
      match t_dec (x_dir sd t), data with
      | None, None => ret tt
      | None, Some _ => fail SError
      | Some dc, Some b =>
          mod_txd sd (set_t_dec None) ;;
          let* e := ask in
          let* s := get in
          let* (ok, slow) := run_tree sd (e_codec e s dc (Some b)) in
          if ok then
            when slow (log LvError "COMPRESSION_BOMB") ;;
            mod_txd sd (set_t_dec (Some (DoFeed b slow :: dc)))
          else fail SError
      | Some dc, None =>
          mod_txd sd (set_t_dec None) ;;
          let* e := ask in
          let* s := get in
          ignore (run_tree sd (e_codec e s dc None))
      end
  | CeNone =>
      add_elen sd (opt_len data) ;;
      match sd with
      | SReq =>
          let* rc := try (run_hook_body_data SReq (opt_payload data)) in
          match rc with
          | inl _ => ret tt
          | inr x => log LvError "REQUEST_BODY_DATA_CALLBACK_ERROR" ;; fail x
          end
      | SResp => run_hook_body_data SResp (opt_payload data)
      end
  | CeError => log LvError "INVALID_CONTENT_ENCODING" ;; fail SError
  end.

(** * Header blocks *)
(** src/request.rs:761-847 and src/response.rs:781-873. *)
Definition parse_headers (sd : side) (data : bytes) : M (bytes * bool) :=
  let* t := need_tx sd in
  match h_headers sd (t_hpc (x_dir sd t)) data with
  | None => out_of_fuel
  | Some (POk remaining (hs, eoh)) =>
      for_each (fun h => mod_tx_log sd (add_header sd h)) hs ;;
      ret (remaining, eoh)
  | Some _ => ret (data, false)
  end.
(** src/request.rs:1094-1236, src/response.rs:1107-1251. *)
Definition init_decompressors (sd : side) : M unit :=
  need_tx sd ;;
  let* e := ask in
  mod_tx_log sd (fun t => let '(d, lg) := initialize_decompressors sd (e_cfg e) (x_dir sd t) in (set_x_dir sd d t, lg)).

(** * Phase changes: src/connection_parser.rs *)
(** 651-666 *)
Definition state_request_start : M unit :=
  set_state SReq StLine ;;
  need_tx SReq ;;
  set_progress SReq PLine ;;
  let* s := get in tx_hook HRequestStart (s_ridx s).

(** 672-721 *)
Definition state_request_headers : M unit :=
  receiver_finalize_clear SReq ;;
  let* t := need_tx SReq in
  let p := prog_rank (t_prog (x_req t)) in
  if prog_rank PHeaders <? p then
    let* s := get in
    tx_hook HRequestTrailer (s_ridx s) ;;
    set_state SReq StFinalize
  else if prog_rank PLine <=? p then
    let* s := get in
    let* e := ask in
    when (negb (s_chunk_count s =? s_chunk_idx s)) (mod_tx SReq (add_flag MULTI_PACKET_HEAD)) ;;
    let* t := the_tx SReq in
    let '(ok, t', lg) := process_request_headers (c_parse_auth (e_cfg e)) (e_ip6 e) (e_b64 e) t in
    put_tx (s_ridx s) t' ;;
    logs lg ;;
    if ok then
      tx_hook HRequestHeaders (s_ridx s) ;;
      init_decompressors SReq ;;
      set_state SReq StConnectCheck
    else fail SError
  else log LvWarning "RESPONSE_BODY_INTERNAL_ERROR" ;; fail SError.

(** src/transaction.rs:932-980, [Transaction::parse_request_line]. *)
Definition tx_parse_request_line : M unit :=
  let* e := ask in
  let* t := the_tx SReq in
  match parse_request_uri (e_ip6 e) (c_dcfg (e_cfg e)) t with
  | None => fail SError
  | Some t' =>
      let* s := get in
      put_tx (s_ridx s) t' ;;
      when (c_parse_urlenc (e_cfg e) && c_param_proc (e_cfg e))
           (for_each (fun nv => let* r := call HParam (s_ridx s) (PlParam (fst nv) (snd nv)) in
                                match r with SOk => ret tt | _ => fail r end)
                     (query_params (c_dcfg (e_cfg e)) t')) ;;
      mod_tx SReq (check_uri_hostname (e_ip6 e))
  end.
(** 739-751: the normalised URIs, once the hooks have run. *)
Definition store_normalized_uri (cfg : config) (t : tx) : tx * list logmsg :=
  match x_parsed t with
  | Some u =>
      let '(partial, complete, n) := generate_normalized_uri (if x_dflt t then decoder_default else c_dcfg cfg) u in
      (set_x_norm_complete complete (set_x_norm_partial partial t), repeat (warning "DOUBLE_ENCODED_URI") n)
  | None => (t, [])
  end.
(** 728-754 *)
Definition state_request_line : M unit :=
  need_tx SReq ;;
  tx_parse_request_line ;;
  let* s := get in
  tx_hook HRequestUriNormalize (s_ridx s) ;;
  tx_hook HRequestLine (s_ridx s) ;;
  let* e := ask in
  mod_tx_log SReq (store_normalized_uri (e_cfg e)) ;;
  set_state SReq StProtocol.

(** 795-808 *)
Definition finalize (i : N) : M unit :=
  let* s := get in
  match tx_get i (s_txs s) with
  | Some t => if is_complete t then tx_hook HTransactionComplete i else ret tt
  | None => ret tt
  end.

(** 761-792 *)
Definition state_request_complete : M unit :=
  let* t := need_tx SReq in
  when (negb (prog_eqb (t_prog (x_req t)) PComplete))
       (when (request_has_body t) (body_data SReq None) ;;
        set_progress SReq PComplete ;;
        (let* s := get in tx_hook HRequestComplete (s_ridx s)) ;;
        receiver_finalize_clear SReq) ;;
  let* t := the_tx SReq in
  set_state SReq (if x_is09 t then StIgnore09 else StIdle) ;;
  let* s := get in
  finalize (s_ridx s) ;;
  request_next.

(** 814-852 *)
Definition state_response_start : M unit :=
  let* t := need_tx SResp in
  (if x_is09 t then
     mod_txd SResp (fun d => set_t_prog PBody (set_t_cep CeNone (set_t_coding CdIdentity d))) ;;
     set_state SResp StStreamClose ;;
     upd_d SResp (set_d_left None)
   else
     set_progress SResp PLine ;;
     set_state SResp StLine) ;;
  (let* s := get in tx_hook HResponseStart (s_pidx s)) ;;
  let* t := the_tx SResp in
  let* d := get_d SReq in
  when (negb (is_some (x_method t)) && negb (is_some (x_uri t)) && pstate_eqb (d_state d) StLine)
       (log LvWarning "REQUEST_LINE_INCOMPLETE").

(** 859-868 *)
Definition state_response_headers : M unit :=
  receiver_finalize_clear SResp ;;
  (let* s := get in tx_hook HResponseHeaders (s_pidx s)) ;;
  init_decompressors SResp.

(** 874-886 *)
Definition state_response_line : M unit :=
  need_tx SResp ;;
  mod_tx_log SResp validate_response_line ;;
  let* s := get in tx_hook HResponseLine (s_pidx s).

(** 925-953 *)
Definition request_parser_check_waiting : M unit :=
  let* s := get in
  if sstate_eqb (d_status (s_resp s)) SsDataOther && (s_pidx s =? s_ridx s) then fail SDataOther
  else if s_other_at_end s then modify (set_s_other_at_end false) ;; fail SDataOther
  else ret tt.

(** 892-921 *)
Definition state_response_complete : M unit :=
  let* s0 := get in
  let i := s_pidx s0 in
  let* t := need_tx SResp in
  when (negb (prog_eqb (t_prog (x_resp t)) PComplete))
       (set_progress SResp PComplete ;;
        when (negb (coding_eqb (t_coding (x_resp t)) CdNoBody)) (ignore (body_data SResp None)) ;;
        tx_hook HResponseComplete i ;;
        receiver_finalize_clear SResp) ;;
  request_parser_check_waiting ;;
  finalize i ;;
  response_next ;;
  set_state SResp StIdle.

(** * The request state machine: src/request.rs *)
(** 232-251 *)
Definition request_connect_check : M unit :=
  let* t := need_tx SReq in
  if is_method (x_methodn t) "CONNECT" then
    set_state SReq StConnectWait ;;
    set_status SReq SsDataOther ;;
    fail SDataOther
  else set_state SReq StBodyDetermine.

(** The method of a line: [tuple((take_is_space, take_not_is_space))]. *)
Definition line_method (l : bytes) : bytes := fst (span (fun c => negb (is_space c)) (snd (span is_space l))).
(** 258-285 *)
Definition request_connect_probe_data : M unit :=
  let* inp := slice in
  match take_till_lf_null inp with
  | POk _ data =>
      check_limit_if_buffered SReq (blen data) ;;
      let* d := get_d SReq in
      if is_unknown (method_new (line_method (d_buf d ++ data))) then
        set_status SReq SsTunnel ;;
        set_status SResp SsTunnel
      else state_request_complete
  | _ => absent_lf SReq
  end.

(** 293-317 *)
Definition request_connect_wait_response : M unit :=
  let* t := need_tx SReq in
  if prog_rank (t_prog (x_resp t)) <=? prog_rank PLine then fail SDataOther
  else if in_range (x_statusn t) 200 299 then set_state SReq StConnectProbe
  else set_state SReq StFinalize.

(** 323-342 *)
Definition request_body_chunked_data_end : M unit :=
  need_tx SReq ;;
  let* p := input in
  match take_till_lf (pd_as_slice p) with
  | POk _ line =>
      add_mlen SReq (blen line) ;;
      consume SReq (blen line) ;;
      set_state SReq StChunkedLength
  | _ =>
      add_mlen SReq (pd_len p) ;;
      absent_lf SReq
  end.

(** 348-373 and src/response.rs:157-179. *)
Definition body_chunked_data (sd : side) : M unit :=
  let* p := input in
  let* d := get_d sd in
  let n := N.min (pd_len p) (match d_chunk d with Some c => c | None => 0 end) in
  if n =? 0 then fail SData
  else
    let* b := slice_to n in
    body_data sd (Some b) ;;
    consume sd n ;;
    let* d := get_d sd in
    match d_chunk d with
    | Some c =>
        upd_d sd (set_d_chunk (Some (c - n))) ;;
        if c - n =? 0 then set_state sd StChunkedDataEnd else fail SData
    | None => fail SData
    end.

(** 378-451 *)
Fixpoint request_chunked_length_loop (fuel : nat) (data : bytes) : M unit :=
  match fuel with
  | O => out_of_fuel
  | S fuel =>
      match take_till_lf data with
      | POk remaining line =>
          consume SReq (blen line) ;;
          check_limit_if_buffered SReq (blen line) ;;
          need_tx SReq ;;
          if bytes_eqb line [10] then
            add_mlen SReq (blen line) ;;
            request_chunked_length_loop fuel remaining
          else
            let* d := get_d SReq in
            let data := d_buf d ++ line in
            add_mlen SReq (blen data) ;;
            match parse_chunked_length data with
            | None => fail SError
            | Some (len, ext) =>
                upd_d SReq (set_d_chunk len) ;;
                when ext (log LvWarning "REQUEST_CHUNK_EXTENSION") ;;
                match len with
                | None => log LvError "INVALID_REQUEST_CHUNK_LEN" ;; fail SError
                | Some n => if n =? 0 then set_state SReq StHeaders ;; set_progress SReq PTrailer
                            else set_state SReq StChunkedData
                end
            end
      | _ => if is_valid_chunked_length_data data then absent_lf SReq
             else log LvError "INVALID_REQUEST_CHUNK_LEN" ;; fail SError
      end
  end.
Definition request_body_chunked_length : M unit :=
  let* d := slice in request_chunked_length_loop (S (length d)) d.

(** 457-497 *)
Definition request_body_identity : M unit :=
  let* d := get_d SReq in
  match d_left d with
  | None => fail SError
  | Some lft =>
      let* p := input in
      let n := N.min (pd_len p) lft in
      if n =? 0 then fail SData
      else
        (if pd_is_gap p then
           need_tx SReq ;;
           add_mlen SReq n ;;
           run_hook_body_data SReq (PlGap n)
         else
           let* b := slice_to n in
           body_data SReq (Some b)) ;;
        consume SReq n ;;
        upd_d SReq (set_d_left (Some (lft - n))) ;;
        if 0 <? lft - n then fail SData
        else
          set_state SReq StFinalize ;;
          body_data SReq None
  end.

(** [o > Some(0)] *)
Definition positive (o : option N) : bool := match o with Some n => 0 <? n | None => false end.
(** 503-540 *)
Definition request_body_determine : M unit :=
  let* t := need_tx SReq in
  match t_coding (x_req t) with
  | CdChunked => set_progress SReq PBody ;; set_state SReq StChunkedLength
  | CdIdentity =>
      let cl := t_clen (x_req t) in
      when (positive cl) (set_progress SReq PBody) ;;
      upd_d SReq (fun d => set_d_left cl (set_d_clen cl d)) ;;
      set_state SReq (if positive cl then StIdentity else StFinalize)
  | CdNoBody => set_state SReq StFinalize
  | _ => fail SError
  end.

Definition crlf : bytes := [13; 10].
(** 545-604 *)
Definition request_headers : M unit :=
  let* data := slice in
  let* d := get_d SReq in
  if sstate_eqb (d_status d) SsClosed then
    need_tx SReq ;;
    mod_txd SReq (fun x => set_t_prog PTrailer (set_t_hpc true x)) ;;
    upd_d SReq (set_d_header None) ;;
    match d_header d with
    | Some h => parse_headers SReq h ;; ret tt
    | None => ret tt
    end ;;
    upd_d SReq (set_d_buf []) ;;
    state_request_headers
  else
    upd_d SReq (set_d_header None) ;;
    let data2 := match d_header d with Some h => h ++ data | None => data end in
    let* (remaining, eoh) := parse_headers SReq data2 in
    let eol := (blen remaining =? blen data2) && (starts_with crlf remaining || starts_with [10] remaining) in
    if eoh || eol then
      (if blen remaining <? blen data then consume SReq (blen data - blen remaining)
       else if eol then
         if starts_with crlf remaining then consume SReq (N.min (blen data) 2)
         else when (starts_with [10] remaining) (consume SReq (N.min (blen data) 1))
       else ret tt) ;;
      state_request_headers
    else
      consume SReq (blen data) ;;
      check_buffer_limit SReq (blen remaining) ;;
      upd_d SReq (set_d_header (Some remaining)) ;;
      fail SDataBuffer.

(** 609-642; HTTP09_MAX_JUNK_LEN is 16 (src/request.rs:30). *)
Definition HTTP09_MAX_JUNK_LEN : N := 16.
Definition request_protocol : M unit :=
  let* t := need_tx SReq in
  if negb (x_is09 t) then
    set_progress SReq PHeaders ;;
    set_state SReq StHeaders
  else
    let* inp := slice in
    let '(sp, rem) := span is_space inp in
    if negb (is_nil rem) || (HTTP09_MAX_JUNK_LEN <? blen sp) then
      mod_tx SReq (fun t => upd_dir SReq (set_t_prog PHeaders) (set_x_is09 false t)) ;;
      log LvWarning "REQUEST_LINE_NO_PROTOCOL" ;;
      set_state SReq StHeaders
    else set_state SReq StFinalize.

(** 648-673 *)
Definition request_line_complete (line : bytes) : M unit :=
  check_buffer_limit SReq (blen line) ;;
  if is_nil line then fail SData
  else
    let* e := ask in
    need_tx SReq ;;
    if is_line_ignorable (c_pers (e_cfg e)) line then
      mod_txd SReq (fun d => set_t_ignored (wadd (t_ignored d) 1) d)
    else
      mod_tx_log SReq (conn_parse_request_line (e_cfg e) (chomp line)) ;;
      state_request_line.
(** 679-700 *)
Definition request_line : M unit :=
  let* p := input in
  let* d := get_d SReq in
  match take_till_lf (pd_as_slice p) with
  | POk _ line =>
      let* b := take_buf SReq in
      consume SReq (blen line) ;;
      request_line_complete (b ++ line)
  | _ =>
      if sstate_eqb (d_status d) SsClosed then
        let* b := take_buf SReq in
        consume SReq (pd_len p) ;;
        request_line_complete (b ++ pd_as_slice p)
      else absent_lf SReq
  end.

(** 1370-1401: what follows a request, once a line of it is there. [buf_len] bytes of [data] had been buffered. *)
Definition request_finalize_line (data : bytes) (buf_len : nat) : M unit :=
  if is_nil data then state_request_complete
  else
    let method := line_method data in
    if is_nil method then
      let* rc := try (body_data SReq (Some data)) in
      upd_d SReq (set_d_buf []) ;;
      match rc with inl _ => ret tt | inr x => fail x end
    else if is_unknown (method_new method) then
      let* d := get_d SReq in
      (if (match d_left d with Some n => n | None => 0 end) =? 0
       then log LvWarning "REQUEST_BODY_UNEXPECTED"
       else upd_d SReq (set_d_left (Some 1))) ;;
      let* rc := try (body_data SReq (Some data)) in
      upd_d SReq (set_d_buf []) ;;
      match rc with inl _ => ret tt | inr x => fail x end
    else
      upd_d SReq (set_d_left None) ;;
      upd_d SReq (fun d => set_d_buf (d_buf d ++ firstn buf_len data) d) ;;
      unconsume SReq (blen data) ;;
      state_request_complete.
(** 1359-1364 *)
Definition request_finalize_work (work : bytes) : M unit :=
  check_limit_if_buffered SReq (blen work) ;;
  let* b := take_buf SReq in
  request_finalize_line (b ++ work) (length b).
(** 1340-1402 *)
Definition request_finalize : M unit :=
  let* p := input in
  let* d := get_d SReq in
  if pd_is_gap p then state_request_complete
  else if sstate_eqb (d_status d) SsClosed then request_finalize_work (pd_as_slice p)
  else if is_nil (pd_as_slice p) then state_request_complete
  else
    match take_till_lf (pd_as_slice p) with
    | POk _ line => consume SReq (blen line) ;; request_finalize_work line
    | _ => absent_lf SReq
    end.

(** 1405-1411 *)
Definition request_ignore_data_after_http_0_9 : M unit :=
  let* p := input in
  when (negb (pd_is_empty p)) (modify (fun s => set_s_cflags (N.lor (s_cflags s) 2) s)) ;;
  consume SReq (pd_len p) ;;
  fail SData.

(** 1417-1434, with request_reset (src/connection_parser.rs:545-549). *)
Definition request_idle : M unit :=
  let* p := input in
  let* d := get_d SReq in
  if pd_is_empty p && (negb (sstate_eqb (d_status d) SsClosed) || is_nil (d_buf d)) then fail SData
  else
    upd_d SReq (fun d => set_d_left None (set_d_clen None d)) ;;
    modify (fun s => set_s_chunk_idx (s_chunk_count s) s) ;;
    ignore state_request_start.

(** src/connection_parser.rs:471-491 *)
Definition handle_request_state : M unit :=
  let* d := get_d SReq in
  match d_state d with
  | StIdle => request_idle
  | StIgnore09 => request_ignore_data_after_http_0_9
  | StLine => request_line
  | StProtocol => request_protocol
  | StHeaders => request_headers
  | StConnectWait => request_connect_wait_response
  | StConnectCheck => request_connect_check
  | StConnectProbe => request_connect_probe_data
  | StBodyDetermine => request_body_determine
  | StChunkedData => body_chunked_data SReq
  | StChunkedLength => request_body_chunked_length
  | StChunkedDataEnd => request_body_chunked_data_end
  | StIdentity => request_body_identity
  | StFinalize => request_finalize
  | StNone | StStreamClose | StClKnown => fail SError
  end.

(** * The response state machine: src/response.rs *)
(** 129-151 *)
Definition response_body_chunked_data_end : M unit :=
  need_tx SResp ;;
  let* p := input in
  match take_till_lf (pd_as_slice p) with
  | POk _ line =>
      consume SResp (blen line) ;;
      add_mlen SResp (blen line) ;;
      set_state SResp StChunkedLength
  | _ =>
      add_mlen SResp (pd_len p) ;;
      consume SResp (pd_len p) ;;
      fail SDataBuffer
  end.

(** 184-276 *)
Fixpoint response_chunked_length_loop (fuel : nat) (data : bytes) : M unit :=
  match fuel with
  | O => out_of_fuel
  | S fuel =>
      need_tx SResp ;;
      match take_till_lf data with
      | POk remaining line =>
          consume SResp (blen line) ;;
          check_limit_if_buffered SResp (blen line) ;;
          if is_chunked_ctl_line line then
            add_mlen SResp (blen line) ;;
            response_chunked_length_loop fuel remaining
          else
            let* d := get_d SResp in
            let data := d_buf d ++ line in
            add_mlen SResp (blen data) ;;
            match parse_chunked_length data with
            | Some (len, ext) =>
                upd_d SResp (set_d_chunk len) ;;
                when ext (log LvWarning "RESPONSE_CHUNK_EXTENSION") ;;
                match len with
                | Some n => if n =? 0 then set_state SResp StHeaders ;; set_progress SResp PTrailer
                            else set_state SResp StChunkedData
                | None => ret tt
                end
            | None =>
                unconsume SResp (blen line) ;;
                set_state SResp StStreamClose ;;
                mod_txd SResp (set_t_coding CdIdentity) ;;
                log LvError "INVALID_RESPONSE_CHUNK_LEN"
            end
      | _ =>
          if is_valid_chunked_length_data data then absent_lf SResp
          else
            mod_txd SResp (set_t_coding CdIdentity) ;;
            set_state SResp StStreamClose ;;
            log LvError "INVALID_RESPONSE_CHUNK_LEN"
      end
  end.
Definition response_body_chunked_length : M unit :=
  let* d := slice in response_chunked_length_loop (S (length d)) d.

(** 282-321 *)
Definition response_body_identity_cl_known : M unit :=
  let* p := input in
  let* d := get_d SResp in
  if sstate_eqb (d_status d) SsClosed then
    set_state SResp StFinalize ;;
    body_data SResp (pd_unconsumed p)
  else
    match d_left d with
    | None => fail SError
    | Some lft =>
        let n := N.min (pd_len p) lft in
        if n =? 0 then fail SData
        else
          (if pd_is_gap p then
             need_tx SResp ;;
             add_mlen SResp n ;;
             run_hook_body_data SResp (PlGap n)
           else
             let* b := slice_to n in
             body_data SResp (Some b)) ;;
          consume SResp n ;;
          upd_d SResp (set_d_left (Some (lft - n))) ;;
          if 0 <? lft - n then fail SData
          else
            set_state SResp StFinalize ;;
            body_data SResp None
    end.

(** 328-350 *)
Definition response_body_identity_stream_close : M unit :=
  let* p := input in
  (if pd_is_gap p then
     need_tx SResp ;;
     run_hook_body_data SResp (PlGap (pd_len p))
   else when (negb (pd_is_empty p))
     (body_data SResp (pd_unconsumed p) ;;
      consume SResp (pd_len p))) ;;
  let* d := get_d SResp in
  if sstate_eqb (d_status d) SsClosed then set_state SResp StFinalize
  else fail SData.

(** 507-532: the content type is what precedes ';' or whitespace, in lower case; when neither occurs, all of it. *)
Definition response_content_type (v : bytes) : bytes :=
  lowers (match take_till_s (fun c => (c =? 59) || is_space c) v with POk _ ct => ct | _ => v end).

(** 502-624: the framing of a response body. *)
Definition response_body_framing (cl te : option header) : M unit :=
  let* t := the_tx SResp in
  let ct := match headers_get_nocase_nozero (t_headers (x_resp t)) (s2b "content-type") with
            | Some h => Some (response_content_type (hd_value h))
            | None => None
            end in
  let multipart := match ct with Some v => is_some (index_of_nocase v (s2b "multipart/byteranges")) | None => false end in
  when (is_some ct) (mod_txd SResp (set_t_ctype ct)) ;;
  let te := match te with
            | Some h => if is_some (index_of_nocase_nozero (hd_value h) (s2b "chunked")) then Some h else None
            | None => None
            end in
  match te, cl with
  | Some te, _ =>
      when (negb (is_eq (cmp_nocase (hd_value te) (s2b "chunked")))) (log LvWarning "RESPONSE_ABNORMAL_TRANSFER_ENCODING") ;;
      when (proto_ltb (t_proton (x_resp t)) ProtoV1_1) (log LvWarning "RESPONSE_CHUNKED_OLD_PROTO") ;;
      mod_txd SResp (set_t_coding CdChunked) ;;
      when (is_some cl) (mod_tx SResp (add_flag REQUEST_SMUGGLING)) ;;
      set_progress SResp PBody ;;
      set_state SResp StChunkedLength
  | None, Some cl =>
      mod_txd SResp (set_t_coding CdIdentity) ;;
      when (fis_set (hd_flags cl) FIELD_REPEATED) (mod_tx SResp (add_flag REQUEST_SMUGGLING)) ;;
      let '(len, lg) := parse_content_length_log (hd_value cl) in
      logs lg ;;
      mod_txd SResp (set_t_clen len) ;;
      upd_d SResp (fun d => set_d_left len (set_d_clen len d)) ;;
      match len with
      | Some n => if n =? 0 then set_state SResp StFinalize
                  else set_state SResp StClKnown ;; set_progress SResp PBody
      | None => log LvError "INVALID_CONTENT_LENGTH_FIELD_IN_RESPONSE" ;; fail SError
      end
  | None, None =>
      if multipart then log LvError "RESPONSE_MULTIPART_BYTERANGES" ;; fail SError
      else
        mod_txd SResp (fun d => set_t_prog PBody (set_t_coding CdIdentity d)) ;;
        set_state SResp StStreamClose ;;
        upd_d SResp (set_d_left None)
  end.

(** 475-628: responses without a body; the others are framed. *)
Definition response_body_presence (cl te : option header) : M unit :=
  let* t := the_tx SResp in
  (if is_method (x_methodn t) "HEAD" then
     mod_txd SResp (set_t_coding CdNoBody) ;;
     set_state SResp StFinalize
   else if in_range (x_statusn t) 100 199 || eq_num (x_statusn t) 204 || eq_num (x_statusn t) 304 then
     if negb (is_some te) && negb (is_some cl) then
       mod_txd SResp (set_t_coding CdNoBody) ;;
       set_state SResp StFinalize
     else log LvWarning "RESPONSE_BODY_UNEXPECTED"
   else ret tt) ;;
  let* d := get_d SResp in
  when (negb (pstate_eqb (d_state d) StFinalize)) (response_body_framing cl te) ;;
  state_response_headers.

(** 373-388: what a response to CONNECT means for the other direction. *)
Definition resume_requests : M unit :=
  let* d := get_d SReq in
  when (negb (sstate_eqb (d_status d) SsError)) (set_status SReq SsData).
(** 353-628 *)
Definition response_body_determine : M unit :=
  let* t := need_tx SResp in
  if is_method (x_methodn t) "CONNECT" && in_range (x_statusn t) 200 299 then
    set_state SResp StFinalize ;;
    state_response_headers
  else
    when (is_method (x_methodn t) "CONNECT")
         (resume_requests ;;
          when (negb (eq_num (x_statusn t) 407)) (modify (set_s_other_at_end true))) ;;
    let* t := the_tx SResp in
    let hs := t_headers (x_resp t) in
    let cl := headers_get_nocase_nozero hs (s2b "content-length") in
    let te := headers_get_nocase_nozero hs (s2b "transfer-encoding") in
    let* dq := get_d SReq in
    if eq_num (x_statusn t) 101 then
      when (match headers_get_nocase_nozero hs (s2b "upgrade") with
            | Some h => is_some (index_of_nocase_nozero (hd_value h) (s2b "h2c"))
            | None => false
            end) (mod_tx SResp (set_x_h2 true)) ;;
      if negb (is_some te) && negb (is_some cl) then
        set_state SResp StFinalize ;;
        when (negb (sstate_eqb (d_status dq) SsError)) (set_status SReq SsTunnel) ;;
        set_status SResp SsTunnel ;;
        state_response_headers
      else
        log LvWarning "SWITCHING_PROTO_WITH_CONTENT_LENGTH" ;;
        response_body_presence cl te
    else if eq_num (x_statusn t) 100 && negb (is_some te) then
      let '(len, lg) := match cl with Some h => parse_content_length_log (hd_value h) | None => (None, []) end in
      logs lg ;;
      if positive len then response_body_presence cl te
      else
        when (x_seen100 t) (log LvError "CONTINUE_ALREADY_SEEN") ;;
        set_state SResp StLine ;;
        mod_tx SResp (fun t => set_x_seen100 true (upd_dir SResp (fun d => set_t_prog PLine (set_t_headers [] d)) t))
    else
      when (in_range (x_statusn t) 400 499 && positive (d_clen dq) &&
            (match d_left dq, d_clen dq with Some a, Some b => a =? b | None, None => true | _, _ => false end))
           (match headers_get_nocase (t_headers (x_req t)) (s2b "expect") with
            | Some h => when (bytes_eqb (hd_value h) (s2b "100-continue")) (set_state SReq StFinalize)
            | None => ret tt
            end) ;;
      response_body_presence cl te.

(** 694-706: whether "HTTP" occurs at an offset below [length next - 4]. *)
Fixpoint http_before (n : nat) (l : bytes) : bool :=
  match n with
  | O => false
  | S n => starts_with (s2b "HTTP") l || http_before n (tl l)
  end.
Definition http_ahead (next : bytes) : M bool :=
  let next := firstn 16 next in
  if blen next <? 4 then panic else ret (http_before (length next - 4) next).
(** 661-728 *)
Definition response_line_complete (line : bytes) : M unit :=
  check_buffer_limit SResp (blen line) ;;
  if is_nil line then fail SData
  else
    let* e := ask in
    need_tx SResp ;;
    if is_line_ignorable (c_pers (e_cfg e)) line then
      let* d := get_d SResp in
      when (sstate_eqb (d_status d) SsClosed) (set_state SResp StFinalize) ;;
      mod_txd SResp (fun d => set_t_ignored (wadd (t_ignored d) 1) d)
    else
      mod_tx SResp (fun t => set_x_status None (set_x_msg None
                      (upd_dir SResp (fun d => set_t_proto None (set_t_line None d)) t))) ;;
      if treat_response_line_as_body line then
        let* p := input in
        let* skip := (if 4 <=? pd_len p then http_ahead (pd_as_slice p) else ret false) in
        if skip then mod_txd SResp (fun d => set_t_ignored (wadd (t_ignored d) 1) d)
        else
          mod_txd SResp (set_t_cep CeNone) ;;
          body_data SResp (Some line) ;;
          when (pd_is_empty p)
            (mod_txd SResp (fun d => set_t_prog PBody (set_t_coding CdIdentity d)) ;;
             upd_d SResp (set_d_left None) ;;
             set_state SResp StFinalize)
      else
        mod_tx_log SResp (conn_parse_response_line line) ;;
        state_response_line ;;
        set_state SResp StHeaders ;;
        set_progress SResp PHeaders.
(** 634-655 *)
Definition response_line : M unit :=
  let* p := input in
  let* d := get_d SResp in
  match take_till_eol (pd_as_slice p) with
  | POk _ (line, _) =>
      let* b := take_buf SResp in
      consume SResp (blen line) ;;
      response_line_complete (b ++ line)
  | _ =>
      if sstate_eqb (d_status d) SsClosed then
        let* b := take_buf SResp in
        consume SResp (pd_len p) ;;
        response_line_complete (b ++ pd_as_slice p)
      else absent_lf SResp
  end.

(** 938-1006 *)
Definition response_trailer_done (i : N) : M unit :=
  receiver_finalize_clear SResp ;;
  tx_hook HResponseTrailer i ;;
  set_state SResp StFinalize.
Definition response_headers : M unit :=
  let* s := get in
  let i := s_pidx s in
  let d := s_resp s in
  if sstate_eqb (d_status d) SsClosed then
    need_tx SResp ;;
    mod_txd SResp (set_t_hpc true) ;;
    upd_d SResp (set_d_header None) ;;
    match d_header d with
    | Some h => parse_headers SResp h ;; ret tt
    | None => ret tt
    end ;;
    response_trailer_done i
  else
    upd_d SResp (set_d_header None) ;;
    let* p := input in
    let data := match d_header d with Some h => h ++ pd_as_slice p | None => pd_as_slice p end in
    let* (remaining, eoh) := parse_headers SResp data in
    let eol := (blen remaining =? blen data) && (bytes_eqb remaining crlf || bytes_eqb remaining [10]) in
    if eoh || eol then
      (if eol then consume SResp (pd_len p)
       else when (blen remaining <=? pd_len p) (consume SResp (pd_len p - blen remaining))) ;;
      let* t := the_tx SResp in
      if prog_eqb (t_prog (x_resp t)) PHeaders then set_state SResp StBodyDetermine
      else response_trailer_done i
    else
      consume SResp (pd_len p) ;;
      check_buffer_limit SResp (blen remaining) ;;
      upd_d SResp (set_d_header (Some remaining)) ;;
      fail SDataBuffer.

(** 1376-1401 *)
Definition response_finalize_work (work : bytes) : M unit :=
  check_limit_if_buffered SResp (blen work) ;;
  let* b := take_buf SResp in
  let data := b ++ work in
  if is_nil data then state_response_complete
  else if treat_response_line_as_body data then
    log LvWarning "RESPONSE_BODY_UNEXPECTED" ;;
    body_data SResp (Some data)
  else
    upd_d SResp (fun d => set_d_buf (d_buf d ++ firstn (length b) data) d) ;;
    unconsume SResp (blen data) ;;
    state_response_complete.
(** 1352-1401 *)
Definition response_finalize : M unit :=
  let* p := input in
  let* d := get_d SResp in
  let w := pd_as_slice p in
  if pd_is_gap p then state_response_complete
  else if sstate_eqb (d_status d) SsClosed then response_finalize_work w
  else
    match w with
    | [] => state_response_complete
    | c :: _ =>
        if c =? 10 then consume SResp (blen w) ;; response_finalize_work w
        else match take_till_lf w with
             | POk _ line => consume SResp (blen line) ;; response_finalize_work line
             | _ => absent_lf SResp
             end
    end.

(** 1408-1448 *)
Definition uri_not_seen : bytes := s2b "/libhtp::request_uri_not_seen".
Definition response_idle : M unit :=
  let* p := input in
  if pd_is_empty p then fail SData
  else
    let* t := need_tx SResp in
    when (prog_eqb (t_prog (x_req t)) PNotStarted)
         (log LvError "UNABLE_TO_MATCH_RESPONSE_TO_REQUEST" ;;
          mod_tx SResp (fun t => upd_dir SReq (set_t_prog PComplete) (set_x_dflt true
             (set_x_parsed (Some {| u_scheme := None; u_username := None; u_password := None; u_hostname := None; u_port := None;
                                    u_port_number := None; u_path := Some uri_not_seen; u_query := None; u_fragment := None |})
             (set_x_uri (Some uri_not_seen) t)))) ;;
          request_next) ;;
    upd_d SResp (fun d => set_d_left None (set_d_clen None d)) ;;
    state_response_start.

(** src/connection_parser.rs:494-510 *)
Definition handle_response_state : M unit :=
  let* d := get_d SResp in
  match d_state d with
  | StIdle => response_idle
  | StLine => response_line
  | StHeaders => response_headers
  | StBodyDetermine => response_body_determine
  | StChunkedData => body_chunked_data SResp
  | StChunkedLength => response_body_chunked_length
  | StChunkedDataEnd => response_body_chunked_data_end
  | StFinalize => response_finalize
  | StStreamClose => response_body_identity_stream_close
  | StClKnown => response_body_identity_cl_known
  | StNone | StProtocol | StConnectCheck | StConnectProbe | StConnectWait | StIdentity | StIgnore09 => fail SError
  end.

(** * The data calls *)
Definition handle_state (sd : side) : M unit := by_side sd handle_request_state handle_response_state.
(** src/request.rs:1544-1548, src/response.rs:1546-1549. *)
Definition gap_allowed (sd : side) (x : pstate) : bool :=
  match sd, x with
  | SReq, (StIdentity | StIgnore09 | StFinalize) => true
  | SResp, (StClKnown | StStreamClose | StFinalize) => true
  | _, _ => false
  end.
(** src/request.rs:1565-1598, src/response.rs:1566-1600: what one iteration decides ([None]: continue). *)
Definition after_step (sd : side) (rc : unit + status) : M (option sstate) :=
  match rc with
  | inl _ => ret None
  | inr (SData | SDataBuffer) =>
      ignore (receiver_send_data sd) ;;
      set_status sd SsData ;;
      ret (Some SsData)
  | inr SDataOther =>
      let* p := input in
      let x := if pd_is_empty p then SsData else SsDataOther in
      set_status sd x ;;
      ret (Some x)
  | inr SStop => set_status sd SsStop ;; ret (Some SsStop)
  | inr _ => set_status sd SsError ;; ret (Some SsError)
  end.
(** src/request.rs:1542-1599, src/response.rs:1545-1601: one iteration. *)
Definition step (sd : side) : M (option sstate) :=
  let* p := input in
  let* d := get_d sd in
  if pd_is_gap p && negb (gap_allowed sd (d_state d)) then
    log LvError "INVALID_GAP" ;; ret (Some SsClosed)
  else
    let* rc := try (handle_state sd) in
    match rc with
    | inr _ => after_step sd rc
    | inl _ =>
        let* d := get_d sd in
        if sstate_eqb (d_status d) SsTunnel then ret (Some SsTunnel)
        else
          let* rc := try (handle_state_change sd) in
          after_step sd rc
    end.
Fixpoint data_loop (sd : side) (fuel : nat) : M sstate :=
  match fuel with
  | O => out_of_fuel
  | S fuel =>
      let* r := step sd in
      match r with
      | Some x => ret x
      | None => data_loop sd fuel
      end
  end.
(** Enough iterations for the loop of one call ([data_loop_terminates]). *)
Definition loop_fuel (sd : side) (s : st) : nat :=
  16 * (length (pd_as_slice (s_input s)) + 2 * length (d_buf (s_dir sd s)) + 2).

(** src/request.rs:1514-1533, src/response.rs:1516-1534: [Some x] ends the call. *)
Definition mark_gap (sd : side) : M (option sstate) :=
  let* s := get in
  let* o := cur_tx sd in
  match o with
  | None => ret (Some SsError)
  | Some t =>
      mod_tx sd (add_flag (by_side sd REQUEST_MISSING_BYTES RESPONSE_MISSING_BYTES)) ;;
      if (s_ridx s =? 0) && prog_eqb (t_prog (x_dir sd t)) PNotStarted then
        set_progress sd PGap ;;
        set_status sd SsError ;;
        ret (Some SsError)
      else ret None
  end.

(** src/request.rs:1459-1600, src/response.rs:1465-1602; the timestamps are not modelled. *)
Definition count_data (sd : side) (n : N) (s : st) : st :=
  match sd with
  | SReq => set_s_in (wadd (s_in s) n) (set_s_chunk_count (wadd (s_chunk_count s) 1) s)
  | SResp => set_s_out (wadd (s_out s) n) s
  end.
Definition data_call (sd : side) (chunk : pdata) : M sstate :=
  modify (set_s_input chunk) ;;
  upd_d sd (set_d_consumed 0) ;;
  let* d := get_d sd in
  match d_status d with
  | SsStop => log LvInfo "PARSER_STATE_ERROR" ;; ret SsStop
  | SsError => log LvError "PARSER_STATE_ERROR" ;; ret SsError
  | _ =>
      if pd_is_empty chunk && negb (sstate_eqb (d_status d) SsClosed) then
        log LvError "ZERO_LENGTH_DATA_CHUNKS" ;; ret SsClosed
      else
        modify (count_data sd (pd_len chunk)) ;;
        if sstate_eqb (d_status d) SsTunnel then ret SsTunnel
        else
          by_side sd (let* r := get_d SResp in when (sstate_eqb (d_status r) SsDataOther) (set_status SResp SsData)) (ret tt) ;;
          let* early := (if pd_is_gap chunk then mark_gap sd else ret None) in
          match early with
          | Some x => ret x
          | None => let* s := get in data_loop sd (loop_fuel sd s)
          end
  end.

(** * What a user can do: src/connection_parser.rs *)
Inductive op :=
| OpOpen                    (** 598-627; the addresses and times are not modelled *)
| OpReq (chunk : pdata)     (** request_data *)
| OpResp (chunk : pdata)    (** response_data *)
| OpReqClose                (** 513-521 *)
| OpClose                   (** 524-543 *)
| OpRemove (i : N).         (** 956-958 *)
Definition close_status (sd : side) : M unit :=
  let* d := get_d sd in when (negb (sstate_eqb (d_status d) SsError)) (set_status sd SsClosed).
(** 967-985 *)
Definition flush_incomplete_transactions : M unit :=
  let* e := ask in
  let* s := get in
  for_each (fun i =>
              ignore (tx_hook HTransactionComplete i) ;;
              when (c_auto_destroy (e_cfg e)) (modify (fun s => set_s_txs (tx_del i (s_txs s)) s)))
           (map fst (filter (fun it => is_started (snd it) && negb (is_complete (snd it))) (s_txs s))).
(** The chunks a user can hand over: bytes or a gap, from their start. *)
Definition fresh_chunk (p : pdata) : bool :=
  (pd_pos p =? 0) && (pd_cb p =? 0) && negb (is_some (pd_data p) && is_some (pd_gap p)).
Definition run_op (o : op) : M (option sstate) :=
  match o with
  | OpOpen =>
      let* s := get in
      (if sstate_eqb (d_status (s_req s)) SsNew && sstate_eqb (d_status (s_resp s)) SsNew
       then set_status SReq SsOpen ;; set_status SResp SsOpen
       else log LvError "CONNECTION_ALREADY_OPEN") ;;
      ret None
  | OpReq c => let* r := data_call SReq c in ret (Some r)
  | OpResp c => let* r := data_call SResp c in ret (Some r)
  | OpReqClose => close_status SReq ;; data_call SReq pd_default ;; ret None
  | OpClose =>
      close_status SReq ;; close_status SResp ;;
      data_call SReq pd_default ;; data_call SResp pd_default ;;
      let* e := ask in
      when (c_flush (e_cfg e)) flush_incomplete_transactions ;;
      ret None
  | OpRemove i => modify (fun s => set_s_txs (tx_del i (s_txs s)) s) ;; ret None
  end.
(** A history: operations in sequence, from a new parser. A panic or a runaway loop would end it. *)
Fixpoint run_ops (l : list op) : M (list (option sstate)) :=
  match l with
  | [] => ret []
  | o :: r => let* x := run_op o in let* xs := run_ops r in ret (x :: xs)
  end.
Definition history (e : env) (l : list op) : res (list (option sstate)) * st := run_ops l e st_new.
