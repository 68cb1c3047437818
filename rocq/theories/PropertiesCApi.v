(** C73: what a program that uses the parser through its C functions sees. A pointer that may be NULL is an [option]. *)
From Verif Require Import Base ModelBstr ModelState ModelTx ModelConn ModelCApi Spec SpecBytes SpecConn SpecCApi ProofsCApi PropertiesConn.
From Coq Require Import ZArith.

(** ** Text *)
(** A string made for C is the text with every NUL written as backslash and zero, and one NUL at its end; the memory taken for it is never overrun. *)
Theorem C73_escaped : forall mem src, length mem = escaped_size src ->
  exists l, bstr_util_strdup_to_c mem src = Some (l ++ [0]) /\ escapes src l /\ ~ In 0 l.
Proof. exact strdup_is. Qed.
Print Assumptions C73_escaped.
(** Two different texts may become the same C string. *)
Theorem C73_escaped_refuted : exists a b mem mem', a <> b /\ length mem = escaped_size a /\ length mem' = escaped_size b /\
  bstr_util_strdup_to_c mem a = bstr_util_strdup_to_c mem' b.
Proof. exists [0], [92; 48], [1; 2; 3], [7; 8; 9]. vm_compute. repeat split; try reflexivity. discriminate. Qed.
Print Assumptions C73_escaped_refuted.
Theorem C73_compare : forall b mem k, holds_text mem k ->
  (bstr_cmp_c b mem = 0%Z <-> b = k) /\ (bstr_cmp_c b mem = (-1)%Z <-> precedes b k) /\ (bstr_cmp_c b mem = 1%Z <-> precedes k b) /\ bstr_dup_c mem = k.
Proof. exact cmp_c_is. Qed.
Print Assumptions C73_compare.
Theorem C73_compare_nocase : forall b mem k b' k', holds_text mem k -> fold_of b b' -> fold_of k k' ->
  (bstr_cmp_c_nocase b mem = 0%Z <-> name_eq b k) /\ (bstr_cmp_c_nocase b mem = (-1)%Z <-> precedes b' k') /\
  (bstr_cmp_c_nocase b mem = 1%Z <-> precedes k' b').
Proof. exact cmp_c_nocase_is. Qed.
Print Assumptions C73_compare_nocase.
Example C73_text_ex : bstr_util_strdup_to_c [7; 7; 7; 7; 7] [65; 0; 66] = Some [65; 92; 48; 66; 0] /\ escaped_size [65; 0; 66] = 5%nat /\
  bstr_cmp_c (s2b "Host") (s2b "Host" ++ [0; 1]) = 0%Z /\ bstr_cmp_c (s2b "Host") (s2b "host" ++ [0]) = (-1)%Z /\
  bstr_cmp_c_nocase (s2b "Host") (s2b "hosT" ++ [0]) = 0%Z.
Proof. vm_compute. repeat split; reflexivity. Qed.
Example C73_text_hyp_ex : holds_text (s2b "Host" ++ [0; 1]) (s2b "Host").
Proof. split; [|exists [1]; reflexivity]. vm_compute. intuition discriminate. Qed.

(** ** Headers *)
(** Asking for a header by name gives the first header of that name, whatever the letter case. *)
Theorem C73_header : forall t sd mem k, holds_text mem k ->
  (forall h, htp_tx_header sd (Some t) (Some mem) = Some h <-> first_such (fun x => hkey_matches (hd_name x) k) (t_headers (x_dir sd t)) h) /\
  (htp_tx_header sd (Some t) (Some mem) = None <-> Forall (fun x => ~ hkey_matches (hd_name x) k) (t_headers (x_dir sd t))).
Proof. exact header_is. Qed.
Print Assumptions C73_header.
(** Counting up to the number of headers gives all of them, in order; beyond it there is none. *)
Theorem C73_headers : forall t sd,
  map (fun i => htp_tx_header_index sd (Some t) (N.of_nat i)) (seq 0 (length (t_headers (x_dir sd t)))) = map Some (t_headers (x_dir sd t)) /\
  (forall i, N.of_nat (length (t_headers (x_dir sd t))) <= i -> htp_tx_header_index sd (Some t) i = None) /\
  tells (Some (N.of_nat (length (t_headers (x_dir sd t))))) (htp_tx_headers_size sd (Some t)).
Proof. exact header_index_is. Qed.
Print Assumptions C73_headers.
(** The flags of a header block: those of any of its headers. *)
Theorem C73_headers_flags : forall hs n, N.testbit (htp_headers_flags (Some hs)) n = true <-> exists h, In h hs /\ N.testbit (hd_flags h) n = true.
Proof. exact flags_are. Qed.
Print Assumptions C73_headers_flags.

(** ** Numbers *)
(** Lengths: the number, or -1 when there is none or it does not fit in 63 bits. *)
Theorem C73_lengths : forall t sd, tells (t_clen (x_dir sd t)) (htp_tx_content_length sd (Some t)) /\
  tells (Some (t_mlen (x_dir sd t))) (htp_tx_message_len sd (Some t)) /\ tells (Some (t_elen (x_dir sd t))) (htp_tx_entity_len sd (Some t)).
Proof. exact numbers_are. Qed.
Print Assumptions C73_lengths.
Example C73_tx_ex : let t := upd_dir SResp (fun d => set_t_headers [mk_header (s2b "A") [49] 4; mk_header (s2b "B") [50] 8; mk_header (s2b "b") [51] 0] (set_t_clen (Some 12) d)) tx_new in
  htp_tx_header SResp (Some t) (Some [98; 0]) = Some (mk_header (s2b "B") [50] 8) /\ htp_tx_header SReq (Some t) (Some [98; 0]) = None /\
  htp_tx_headers_size SResp (Some t) = 3%Z /\ htp_tx_header_index SResp (Some t) 2 = Some (mk_header (s2b "b") [51] 0) /\
  htp_headers_flags (Some (t_headers (x_resp t))) = 12 /\ htp_tx_content_length SResp (Some t) = 12%Z /\ htp_tx_content_length SReq (Some t) = (-1)%Z.
Proof. vm_compute. repeat split; reflexivity. Qed.

(** ** Sessions *)
(** Whatever is called, in whatever order, every call returns: no panic, no endless loop. *)
Theorem C73_session : forall e (l : list c_op), exists r s, history e (map op_of l) = (ROk r, s).
Proof. exact session_returns. Qed.
Print Assumptions C73_session.
(** Never more bytes are reported as consumed than the last call handed over. *)
Theorem C73_consumed : forall e l sd, Forall readable l -> handed sd l < 2 ^ 63 ->
  let s := snd (history e (map op_of l)) in
  htp_connp_data_consumed sd (Some s) = Z.of_N (d_consumed (s_dir sd s)) /\ (0 <= htp_connp_data_consumed sd (Some s) <= Z.of_N (handed sd l))%Z.
Proof. exact c_consumed. Qed.
Print Assumptions C73_consumed.
(** The transactions are numbered 0 up to the number reported, without holes, if none is ever destroyed and the callbacks refuse nothing. *)
Theorem C73_transactions : forall e l i, accepting e -> c_auto_destroy (e_cfg e) = false -> c_max_tx (e_cfg e) < 2 ^ 63 -> Forall keeps_all l ->
  let s := snd (history e (map op_of l)) in htp_connp_tx (Some s) i <> None <-> (Z.of_N i < htp_connp_tx_size (Some s))%Z.
Proof. exact c_enumerated. Qed.
Print Assumptions C73_transactions.
(** A transaction that is handed out has begun. *)
Theorem C73_begun : forall s i t, htp_connp_tx (Some s) i = Some t <->
  tx_get i (s_txs s) = Some t /\ (t_prog (x_req t) <> PNotStarted \/ t_prog (x_resp t) <> PNotStarted).
Proof. exact tx_is. Qed.
Print Assumptions C73_begun.
(** The log messages are handed out oldest first, each once, and then there are no more. *)
Theorem C73_logs : forall s, ask_logs (length (s_logs s)) s = (map Some (rev (s_logs s)), set_s_logs [] s) /\
  htp_conn_next_log (set_s_logs [] s) = (None, set_s_logs [] s).
Proof. exact logs_drained. Qed.
Print Assumptions C73_logs.
Definition c_bytes (b : bytes) : c_op := CData SReq (Some (b ++ [0; 0])) (blen b).
Definition c_ex : list c_op := [COpen; c_bytes (ln "GET /a HTTP/1.1" ++ eol ++ ln "GET /b HTTP/1.1" ++ eol ++ s2b "GE"); CData SResp None 3; CData SResp (Some []) 0].
Example C73_session_ex : let s := snd (history ok_env (map op_of c_ex)) in
  accepting ok_env /\ c_auto_destroy (e_cfg ok_env) = false /\ c_max_tx (e_cfg ok_env) < 2 ^ 63 /\ Forall keeps_all c_ex /\ Forall readable c_ex /\ handed SReq c_ex = 40 /\
  htp_connp_tx_size (Some s) = 2%Z /\ htp_connp_data_consumed SReq (Some s) = 40%Z /\ s_logs s <> [].
Proof.
  assert (A : accepting ok_env) by (split; [left; reflexivity|reflexivity]).
  split; [exact A|]. split; [reflexivity|]. split; [reflexivity|]. split; [repeat constructor|]. split; [repeat (apply Forall_cons; [vm_compute; first [exact I|discriminate]|]); apply Forall_nil|].
  split; [reflexivity|]. vm_compute. repeat split; try reflexivity; discriminate.
Qed.
(** Destroying a transaction may lower the number: the next one is no longer counted. *)
Theorem C73_transactions_refuted : exists e l, accepting e /\ c_auto_destroy (e_cfg e) = false /\
  let s := snd (history e (map op_of l)) in let s' := snd (history e (map op_of (l ++ [CDestroy 1]))) in
  htp_connp_tx_size (Some s) = 2%Z /\ htp_connp_tx_size (Some s') = 1%Z /\ htp_connp_tx (Some s') 0 <> None.
Proof.
  exists ok_env, [COpen; c_bytes (ln "GET /a HTTP/1.1" ++ eol ++ ln "GET /b HTTP/1.1")].
  split; [split; [left; reflexivity|reflexivity]|]. split; [reflexivity|]. vm_compute. repeat split; try reflexivity; discriminate.
Qed.
Print Assumptions C73_transactions_refuted.

(** ** NULL *)
(** With NULL in place of a connection, a transaction or a key, the answer is NULL, -1, 0 or an error. *)
Theorem C73_null : forall sd key i data len e,
  htp_headers_get None key = None /\ htp_headers_get_index None i = None /\ htp_headers_size None = (-1)%Z /\ htp_headers_flags None = 0 /\
  htp_tx_header sd None key = None /\ (forall t, htp_tx_header sd t None = None) /\ htp_tx_header_index sd None i = None /\ htp_tx_headers_size sd None = (-1)%Z /\
  htp_tx_content_length sd None = (-1)%Z /\ htp_tx_message_len sd None = (-1)%Z /\ htp_tx_entity_len sd None = (-1)%Z /\
  htp_tx_request_port_number None = (-1)%Z /\ htp_tx_response_status_number None = (-1)%Z /\
  htp_connp_data sd data len e None = (ROk SsError, None) /\ htp_connp_tx_size None = (-1)%Z /\ htp_connp_tx None i = None /\
  htp_connp_data_consumed sd None = (-1)%Z.
Proof. intros. repeat split. intros [t|]; reflexivity. Qed.
Print Assumptions C73_null.
(** One function reads through the pointer before it looks whether it is NULL. *)
Theorem C73_null_refuted : forall all, htp_tx_normalized_uri all None = None /\ forall t, htp_tx_normalized_uri all (Some t) <> None.
Proof. split; [reflexivity|discriminate]. Qed.
Print Assumptions C73_null_refuted.
