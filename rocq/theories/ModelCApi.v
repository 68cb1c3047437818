(** The C interface: src/c_api. A pointer that may be NULL is an [option]; C's signed integers are [Z]. Functions that only hand out a
    pointer to a field (src/c_api/uri.rs, most of src/c_api/transaction.rs) are represented by [field]; user data, addresses and times are not modelled. *)
From Verif Require Import Base ModelBstr ModelUrl ModelState ModelTx ModelConn.
From Coq Require Import ZArith.

(** The bytes behind a [char *] up to the first NUL ([CStr::from_ptr(c).to_bytes()]). *)
Fixpoint c_string (mem : bytes) : bytes := match mem with [] => [] | b :: l => if b =? 0 then [] else b :: c_string l end.
(** [isize::try_from(n).unwrap_or(-1)], [n.try_into().ok().unwrap_or(-1)] for i64. *)
Definition as_signed (n : N) : Z := if n <? 2 ^ 63 then Z.of_N n else (-1)%Z.
(** [p.as_ref().map(f).unwrap_or(d)] *)
Definition field {A B} (d : B) (f : A -> B) (p : option A) : B := match p with Some a => f a | None => d end.

(** * src/c_api/bstr.rs *)
(** 55-64 *)
Definition sign (c : comparison) : Z := match c with Lt => -1 | Eq => 0 | Gt => 1 end%Z.
Definition bstr_cmp_c (b c : bytes) : Z := sign (lex_cmp b (c_string c)).
(** 72-81 *)
Definition bstr_cmp_c_nocase (b c : bytes) : Z := sign (cmp_nocase b (c_string c)).
(** 86-91 *)
Definition bstr_dup_c (c : bytes) : bytes := [] ++ c_string c.
(** 102-141. The allocated memory has arbitrary contents; [None]: an index beyond the allocation (a panic). *)
Fixpoint store (mem : bytes) (i : nat) (b : N) : option bytes :=
  match mem, i with
  | [], _ => None
  | _ :: mem, O => Some (b :: mem)
  | c :: mem, S i => option_map (cons c) (store mem i b)
  end.
Fixpoint copy_escaped (src mem : bytes) (i : nat) : option (bytes * nat) :=
  match src with
  | [] => Some (mem, i)
  | b :: src =>
      if b =? 0 then
        match store mem i 92 with
        | Some mem => match store mem (i + 1) 48 with Some mem => copy_escaped src mem (i + 1 + 1) | None => None end
        | None => None
        end
      else match store mem i b with Some mem => copy_escaped src mem (i + 1) | None => None end
  end.
Definition escaped_size (src : bytes) : nat := Nat.add (length src) (fold_left (fun n (b : N) => if b =? 0 then S n else n) src 1%nat).
Definition bstr_util_strdup_to_c (mem src : bytes) : option bytes :=
  match copy_escaped src mem 0 with
  | Some (mem, i) => store mem i 0
  | None => None
  end.

(** * src/c_api/header.rs *)
(** 18-30 *)
Definition htp_headers_get (hs : option headers_tab) (ckey : option bytes) : option header :=
  match hs, ckey with
  | Some hs, Some k => headers_get_nocase_nozero hs (c_string k)
  | _, _ => None
  end.
(** 40-49 *)
Definition htp_headers_flags (hs : option headers_tab) : N := field 0 (fun hs => fold_left (fun f h => N.lor f (hd_flags h)) hs 0) hs.
(** 60-74 *)
Definition htp_headers_get_index (hs : option headers_tab) (i : N) : option header := field None (fun hs => nth_error hs (N.to_nat i)) hs.
(** 84-89 *)
Definition htp_headers_size (hs : option headers_tab) : Z := field (-1)%Z (fun hs => as_signed (N.of_nat (length hs))) hs.

(** * src/c_api/transaction.rs *)
(** 229-281, 541-593 *)
Definition htp_tx_headers_size (sd : side) (p : option tx) : Z := field (-1)%Z (fun t => as_signed (N.of_nat (length (t_headers (x_dir sd t))))) p.
Definition htp_tx_header (sd : side) (p : option tx) (ckey : option bytes) : option header := field None (fun t => htp_headers_get (Some (t_headers (x_dir sd t))) ckey) p.
Definition htp_tx_header_index (sd : side) (p : option tx) (i : N) : option header := field None (fun t => nth_error (t_headers (x_dir sd t)) (N.to_nat i)) p.
(** 332-341, 625-634 *)
Definition htp_tx_content_length (sd : side) (p : option tx) : Z := field (-1)%Z (fun t => field (-1)%Z as_signed (t_clen (x_dir sd t))) p.
(** 379-384 *)
Definition htp_tx_request_port_number (p : option tx) : Z := field (-1)%Z (fun t => field (-1)%Z Z.of_N (x_port t)) p.
(** 394-412, 597-615 *)
Definition htp_tx_message_len (sd : side) (p : option tx) : Z := field (-1)%Z (fun t => as_signed (t_mlen (x_dir sd t))) p.
Definition htp_tx_entity_len (sd : side) (p : option tx) : Z := field (-1)%Z (fun t => as_signed (t_elen (x_dir sd t))) p.
(** 481-490 *)
Definition htp_tx_response_status_number (p : option tx) : Z :=
  field (-1)%Z (fun t => match x_statusn t with RnUnknown => 0 | RnInvalid => -1 | RnValid n => Z.of_N n end)%Z p.
(** 27-39; the first access is not guarded: [None] is a NULL dereference. [all]: normalized_uri_include_all. *)
Definition htp_tx_normalized_uri (all : bool) (p : option tx) : option (option bytes) :=
  match p with
  | Some t => Some (if all then x_norm_complete t else x_norm_partial t)
  | None => None
  end.

(** * src/c_api/connection.rs *)
(** 31-36 with src/connection.rs:122-128: the log channel is a queue; the model keeps it newest first. *)
Definition htp_conn_next_log (s : st) : option logmsg * st :=
  match rev (s_logs s) with
  | [] => (None, s)
  | m :: l => (Some m, set_s_logs (rev l) s)
  end.

(** * src/c_api/connection_parser.rs *)
(** src/connection_parser.rs:260-272: [data]: NULL or [len] readable bytes *)
Definition chunk_from (data : option bytes) (len : N) : pdata :=
  match data with
  | None => if 0 <? len then mk_pdata None (Some len) 0 0 else pd_slice []
  | Some mem => pd_slice (firstn (N.to_nat len) mem)
  end.
(** 174-226 *)
Definition htp_connp_data (sd : side) (data : option bytes) (len : N) (e : env) (p : option st) : res sstate * option st :=
  match p with
  | Some s => let '(r, s') := data_call sd (chunk_from data len) e s in (r, Some s')
  | None => (ROk SsError, None)
  end.
(** 228-233 *)
Definition htp_connp_tx_size (p : option st) : Z := field (-1)%Z (fun s => as_signed (tx_size s)) p.
(** 241-261 *)
Definition htp_connp_tx (p : option st) (i : N) : option tx :=
  field None (fun s => match tx_get i (s_txs s) with Some t => if is_started t then Some t else None | None => None end) p.
(** 300-322 *)
Definition htp_connp_data_consumed (sd : side) (p : option st) : Z := field (-1)%Z (fun s => as_signed (d_consumed (s_dir sd s))) p.
(** A whole session through this interface, on a connection that is not NULL. *)
Inductive c_op := COpen | CData (sd : side) (data : option bytes) (len : N) | CReqClose | CClose | CDestroy (i : N).
Definition op_of (c : c_op) : op :=
  match c with
  | COpen => OpOpen
  | CData SReq data len => OpReq (chunk_from data len)
  | CData SResp data len => OpResp (chunk_from data len)
  | CReqClose => OpReqClose
  | CClose => OpClose
  | CDestroy i => OpRemove i  (** src/c_api/transaction.rs:15-19 *)
  end.
