(** Properties C24-C27, C29 and C30 of properties.jsonl: header tables, request framing, callback lists, log messages. *)
From Verif Require Import Base Spec ModelTx ModelHook SpecTx ProofsHeaders ProofsTx.

(** * C24 *)
(** [view]: name, value and FIELD_REPEATED flag of an entry; [merged_table] is in SpecTx.v. *)
Theorem C24_table_is_merged : forall sd l t,
  t_headers (x_dir sd t) = [] -> t_reps (x_dir sd t) = 0 -> Forall (fun x => tight (fst x)) (map kv_of_ph l) ->
  map view (t_headers (x_dir sd (add_headers sd l t))) = merged_table (map kv_of_ph l).
Proof. exact header_table_merged. Qed.
Print Assumptions C24_table_is_merged.
(** The side condition holds for the names the header parser reports. *)
Theorem C24_parsed_names_tight : forall sd complete input rest hs eoh,
  h_headers sd complete input = Some (POk rest (hs, eoh)) -> Forall (fun x => tight (fst x)) (map kv_of_ph hs).
Proof. exact parsed_names_tight. Qed.
Print Assumptions C24_parsed_names_tight.
Definition kv (k v : string) : pheader := mk_ph (mk_hf (s2b k) 0) (mk_hf (s2b v) 0).
Example C24_ex :
  let l := [kv "Cookie" "a"; kv "Content-Length" "5"; kv "cookie" "b"; kv "content-length" "6"; kv "COOKIE" "c"] in
  Forall (fun x => tight (fst x)) (map kv_of_ph l) /\
  map view (t_headers (x_dir SReq (add_headers SReq l tx_new))) =
    [(s2b "Cookie", s2b "a, b, c", true); (s2b "Content-Length", s2b "5", true)].
Proof.
  split; [|vm_compute; reflexivity].
  repeat constructor; cbn; try (intros x m [= <- _]); try (intros x m E; apply (f_equal (@rev N)) in E; rewrite rev_app_distr in E; cbn in E; injection E as <- _);
  unfold ascii_space; intros H; repeat destruct H as [H|H]; discriminate.
Qed.

(** * C25 *)
Theorem C25_repetitions_bounded : forall sd l t,
  t_reps (x_dir sd t) <= 64 -> t_reps (x_dir sd (add_headers sd l t)) <= 64.
Proof. exact add_headers_reps. Qed.
Print Assumptions C25_repetitions_bounded.
(** Storage: every line adds at most its own length plus a separator. *)
Theorem C25_storage_bounded : forall sd l t,
  (stored (t_headers (x_dir sd (add_headers sd l t))) <=
   stored (t_headers (x_dir sd t)) + list_sum (map (fun x => length (fst x) + length (snd x) + 2) (map kv_of_ph l)))%nat.
Proof. exact add_headers_stored. Qed.
Print Assumptions C25_storage_bounded.
(** Of any number of lines, at most 64 more than two per name are kept. *)
Theorem C25_kept_lines_bounded : forall l, (extra [] (kept l) <= 64)%nat.
Proof. exact kept_extra. Qed.
Print Assumptions C25_kept_lines_bounded.
Example C25_ex : let l := repeat (kv "a" "b") 100 in
  t_reps (x_dir SReq (add_headers SReq l tx_new)) = 64 /\ uses (s2b "A", []) (kept (map kv_of_ph l)) = 66%nat.
Proof. vm_compute. auto. Qed.

(** * C26 *)
Theorem C26_chunked : forall p ip6 b64 t ok t' lg te, process_request_headers p ip6 b64 t = (ok, t', lg) ->
  the_header (t_headers (x_req t)) (s2b "transfer-encoding") te -> mentions (hd_value te) (s2b "chunked") ->
  t_coding (x_req t') = CdChunked /\
  (fis_set (x_flags t') REQUEST_SMUGGLING = true <->
     fis_set (x_flags t) REQUEST_SMUGGLING = true \/ t_proton (x_req t) <> ProtoV1_1 \/
     exists cl, the_header (t_headers (x_req t)) (s2b "content-length") cl) /\
  (fis_set (x_flags t') REQUEST_INVALID_T_E = true <->
     fis_set (x_flags t) REQUEST_INVALID_T_E = true \/ t_proton (x_req t) <> ProtoV1_1).
Proof. exact framing_chunked. Qed.
Print Assumptions C26_chunked.
Theorem C26_other_transfer_encoding : forall p ip6 b64 t ok t' lg te, process_request_headers p ip6 b64 t = (ok, t', lg) ->
  the_header (t_headers (x_req t)) (s2b "transfer-encoding") te -> ~ mentions (hd_value te) (s2b "chunked") ->
  t_coding (x_req t') = CdInvalid /\ fis_set (x_flags t') REQUEST_INVALID_T_E = true /\ fis_set (x_flags t') REQUEST_INVALID = true /\
  fis_set (x_flags t') REQUEST_SMUGGLING = fis_set (x_flags t) REQUEST_SMUGGLING.
Proof. exact framing_other_te. Qed.
Print Assumptions C26_other_transfer_encoding.
Theorem C26_content_length : forall p ip6 b64 t ok t' lg cl, process_request_headers p ip6 b64 t = (ok, t', lg) ->
  lacks (t_headers (x_req t)) (s2b "transfer-encoding") -> the_header (t_headers (x_req t)) (s2b "content-length") cl ->
  (forall n, t_clen (x_req t') = Some n <-> exists ds, first_digit_run (hd_value cl) ds /\ dec_value ds = n /\ n < 2 ^ 64) /\
  (t_coding (x_req t') = match t_clen (x_req t') with Some _ => CdIdentity | None => CdInvalid end) /\
  (t_clen (x_req t') = None -> fis_set (x_flags t') REQUEST_INVALID_C_L = true /\ fis_set (x_flags t') REQUEST_INVALID = true) /\
  (fis_set (x_flags t') REQUEST_SMUGGLING = true <->
     fis_set (x_flags t) REQUEST_SMUGGLING = true \/ fis_set (hd_flags cl) FIELD_REPEATED = true \/ fis_set (hd_flags cl) FIELD_FOLDED = true).
Proof. exact framing_length. Qed.
Print Assumptions C26_content_length.
Theorem C26_no_body : forall p ip6 b64 t ok t' lg, process_request_headers p ip6 b64 t = (ok, t', lg) ->
  lacks (t_headers (x_req t)) (s2b "transfer-encoding") -> lacks (t_headers (x_req t)) (s2b "content-length") ->
  t_coding (x_req t') = CdNoBody /\ fis_set (x_flags t') REQUEST_SMUGGLING = fis_set (x_flags t) REQUEST_SMUGGLING.
Proof. exact framing_none. Qed.
Print Assumptions C26_no_body.
Definition framed (l : list pheader) : tx :=
  snd (fst (process_request_headers true (fun _ => None) (fun _ => None)
        (add_headers SReq l (upd_dir SReq (set_t_proton ProtoV1_1) tx_new)))).
Example C26_ex :
  (let t := framed [kv "Transfer-Encoding" "gzip, chunKed"; kv "Content-Length" "5"] in
   (t_coding (x_req t), fis_set (x_flags t) REQUEST_SMUGGLING, fis_set (x_flags t) REQUEST_INVALID_T_E) = (CdChunked, true, false)) /\
  (let t := framed [kv "Transfer-Encoding" "identity"] in
   (t_coding (x_req t), fis_set (x_flags t) REQUEST_INVALID_T_E) = (CdInvalid, true)) /\
  (let t := framed [kv "Content-Length" "12"] in
   (t_coding (x_req t), t_clen (x_req t), fis_set (x_flags t) REQUEST_SMUGGLING) = (CdIdentity, Some 12, false)) /\
  (let t := framed [kv "Content-Length" "12"; kv "Content-Length" "12"] in fis_set (x_flags t) REQUEST_SMUGGLING = true) /\
  t_coding (x_req (framed [kv "Host" "a"])) = CdNoBody.
Proof. vm_compute. auto. Qed.

(** * C27 *)
(** No header line ever gives an entry the flag the check looks at, so the check cannot fire ... *)
Theorem C27_flag_never_set : forall sd l t, clear_of FIELD_FOLDED (t_headers (x_dir sd t)) ->
  clear_of FIELD_FOLDED (t_headers (x_dir sd (add_headers sd l t))).
Proof. intros sd l t. exact (add_headers_folded sd l t). Qed.
Print Assumptions C27_flag_never_set.
(** ... and a block with a folded Content-Length goes unreported. *)
Theorem C27_folded_length_refuted : exists hs t ok t' lg,
  h_headers SReq false (s2b "Content-Length: 1" ++ [13; 10] ++ s2b " 0" ++ [13; 10; 13; 10]) = Some (POk [] (hs, true)) /\
  t = add_headers SReq hs tx_new /\
  process_request_headers true (fun _ => None) (fun _ => None) t = (ok, t', lg) /\
  fis_set (x_flags t') REQUEST_SMUGGLING = false.
Proof. exact folded_not_reported. Qed.
Print Assumptions C27_folded_length_refuted.

(** * C29 *)
Theorem C29_all_run : forall (S : Type) (h : list (callback S)) s s', run_all h s = (AnsOk, s') <-> all_pass h s s'.
Proof. exact @run_all_ok. Qed.
Print Assumptions C29_all_run.
Theorem C29_first_failure : forall (S : Type) (h : list (callback S)) x s s', run_all h s = (AnsErr x, s') <->
  exists before c after s1, h = before ++ c :: after /\ all_pass before s s1 /\ fails c s1 x s'.
Proof. exact @run_all_err. Qed.
Print Assumptions C29_first_failure.
(** Registration appends. *)
Theorem C29_registration_order : forall (S : Type) (fs : list ((S -> answer * S) + (S -> status * S))),
  fold_left (fun h f => match f with inl f => register f h | inr f => register_extern f h end) fs hook_new =
  map (fun f => match f with inl f => Native f | inr f => External f end) fs.
Proof. exact @registered. Qed.
Print Assumptions C29_registration_order.
(** Callbacks that record their number: the third fails. *)
Example C29_ex :
  let note (n : nat) (l : list nat) := l ++ [n] in
  let h := register_extern (fun s => (SOk, note 4%nat s)) (register (fun s => (AnsErr SStop, note 3%nat s))
            (register_extern (fun s => (SDeclined, note 2%nat s)) (register (fun s => (AnsOk, note 1%nat s)) hook_new))) in
  run_all h [] = (AnsErr SStop, [1; 2; 3]%nat).
Proof. vm_compute. reflexivity. Qed.

(** * C30 *)
(** After any sequence of logging and draining calls that ends with get_logs, what was handed out is what was logged at or below
    the level, in order, and nothing is left. *)
Theorem C30_drained_in_order : forall limit l, let '(outs, q) := log_ops limit (l ++ [GetLogs]) [] in
  concat outs = filter (fun m => lg_level m <=? limit) (issued l) /\ q = [].
Proof. exact log_drained. Qed.
Print Assumptions C30_drained_in_order.
(** While some messages are still in the channel. *)
Theorem C30_channel_order : forall limit l q, let '(outs, q') := log_ops limit l q in
  concat outs ++ q' = q ++ filter (fun m => lg_level m <=? limit) (issued l).
Proof. intros limit l q. exact (log_channel limit l q). Qed.
Print Assumptions C30_channel_order.
(** Messages tied to a flag are issued at most once per transaction and not at all once the flag is set. *)
Theorem C30_warned_once : forall f sd l, In f [FIELD_INVALID; INVALID_FOLDING; FIELD_UNPARSEABLE] -> forall t,
  (length (filter (is_once f) (add_headers_log sd l t)) <= if fis_set (x_flags t) f then 0 else 1)%nat.
Proof. exact warned_once. Qed.
Print Assumptions C30_warned_once.
Example C30_ex :
  log_ops LvWarning [LogMsg LvError "a"; LogMsg LvInfo "b"; GetNextLog; LogMsg LvWarning "c"; LogMsg LvError "d"; GetLogs] [] =
    ([[]; []; [mk_log LvError "a"]; []; []; [mk_log LvWarning "c"; mk_log LvError "d"]], []) /\
  map lg_code (add_headers_log SReq [mk_ph (mk_hf (s2b "a b") HF_NAME_NON_TOKEN_CHARS) (mk_hf [] 0);
                                     mk_ph (mk_hf (s2b "c d") HF_NAME_NON_TOKEN_CHARS) (mk_hf [] 0)] tx_new) = ["REQUEST_HEADER_INVALID"%string].
Proof. vm_compute. auto. Qed.
