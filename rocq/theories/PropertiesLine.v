(** Properties C74 and C75 of properties.jsonl: how the first line of every message is read. Vocabulary: SpecLine.v, and [request_line_read] and
    [status_line_read] in SpecStage.v. *)
From Verif Require Import ProofsUrl ProofsUri.
From Verif Require Import Base Spec SpecTx SpecMsg SpecHost SpecConn SpecLine SpecStage SpecDecomp ModelUtil ModelParsers ModelUri ModelHeaders ModelState ModelTx ModelConn ModelConfig ProofsLine ProofsStage.

(** * C74 *)
(** Every request line has exactly one reading; that is what the transaction tells, and each warning is logged exactly when it is due. *)
Theorem C74_request_line_exact : forall c line, exists w, reads_request c line w /\ (forall w', reads_request c line w' -> w' = w) /\
  forall t, t_line (x_req (fst (conn_parse_request_line c line t))) = Some line /\ tells_request c w (fst (conn_parse_request_line c line t)) /\
    forall m, In m (snd (conn_parse_request_line c line t)) <-> exists code, m = warning code /\ warned w code.
Proof. exact request_line_exact. Qed.
Print Assumptions C74_request_line_exact.
(** The target and the protocol are told apart in one way only. *)
Theorem C74_target_unique : forall spaces rest t p t' p', target_and_protocol spaces rest t p -> target_and_protocol spaces rest t' p' -> t = t' /\ p = p'.
Proof. exact target_unique. Qed.
Print Assumptions C74_target_unique.
(** In every history the callbacks for a request line and for its target find the transaction of that request with its line read so, and
    the parts of its target. *)
Theorem C74_request_line_found : forall e l later h i d x past, h = HRequestLine \/ h = HRequestUriNormalize ->
  s_trace (snd (history e l)) = later ++ (mk_ev h i d, x) :: past ->
  exists s t, s_trace s = past /\ tx_get i (s_txs s) = Some t /\ i = s_ridx s /\ request_line_read (e_cfg e) t /\ x = e_cb e s (mk_ev h i d).
Proof. exact request_line_found. Qed.
Print Assumptions C74_request_line_found.
Theorem C74_request_line_checks : forall e,
  (forall s h i d t, h = HRequestLine \/ h = HRequestUriNormalize -> tx_get i (s_txs s) = Some t -> request_line_read (e_cfg e) t -> e_cb e s (mk_ev h i d) = SOk) ->
  forall l h i d x, h = HRequestLine \/ h = HRequestUriNormalize -> In (mk_ev h i d, x) (s_trace (snd (history e l))) -> x = SOk.
Proof. exact request_line_ok. Qed.
Print Assumptions C74_request_line_checks.

(** * C75 *)
Theorem C75_status_line_exact : forall line, exists w, reads_status line w /\ (forall w', reads_status line w' -> w' = w) /\
  forall t, t_proto (x_resp t) = None -> let t1 := conn_parse_response_line line t in let t2 := validate_response_line (fst t1) in
    t_line (x_resp (fst t2)) = Some line /\ tells_status w (fst t2) /\ forall m, In m (snd t1 ++ snd t2) <-> exists code, m = warning code /\ status_warned w code.
Proof. exact status_line_exact. Qed.
Print Assumptions C75_status_line_exact.
Theorem C75_status_line_found : forall e l later i d x past, s_trace (snd (history e l)) = later ++ (mk_ev HResponseLine i d, x) :: past ->
  exists s t, s_trace s = past /\ tx_get i (s_txs s) = Some t /\ i = s_pidx s /\ status_line_read t /\ x = e_cb e s (mk_ev HResponseLine i d).
Proof. exact status_line_found. Qed.
Print Assumptions C75_status_line_found.
Theorem C75_status_line_checks : forall e, (forall s i d t, tx_get i (s_txs s) = Some t -> status_line_read t -> e_cb e s (mk_ev HResponseLine i d) = SOk) ->
  forall l i d x, In (mk_ev HResponseLine i d, x) (s_trace (snd (history e l))) -> x = SOk.
Proof. exact status_line_ok. Qed.
Print Assumptions C75_status_line_checks.

(** * Cases *)
Definition told (c : config) (line : bytes) :=
  let '(t, lg) := conn_parse_request_line c line tx_new in (x_method t, x_uri t, t_proto (x_req t), t_proton (x_req t), x_is09 t, map lg_code lg).
(** The first space ends the target, or the last one; without a space, other white space does. *)
Example C74_ex :
  told config_default (s2b "GET /a b HTTP/1.1") = (Some (s2b "GET"), Some (s2b "/a"), Some (s2b "b HTTP/1.1"), ProtoInvalid, false, []) /\
  told (set_c_dcfg (put_allow_space_uri true (c_dcfg config_default)) config_default) (s2b "GET /a b HTTP/1.1") =
    (Some (s2b "GET"), Some (s2b "/a b"), Some (s2b "HTTP/1.1"), ProtoV1_1, false, []) /\
  told config_default ([32] ++ s2b "GO" ++ [9] ++ s2b "/a" ++ [9] ++ s2b "HTTP/1.0") =
    (Some (s2b "GO"), Some (s2b "/a"), Some (s2b "HTTP/1.0"), ProtoV1_0, false,
     ["REQUEST_LINE_LEADING_WHITESPACE"; "METHOD_DELIM_NON_COMPLIANT"; "URI_DELIM_NON_COMPLIANT"]%string) /\
  told config_default (s2b "GO") = (Some (s2b "GO"), None, None, ProtoV0_9, true, ["REQUEST_LINE_UNKNOWN_METHOD"]%string).
Proof. vm_compute. repeat split. Qed.
Definition told_status (line : bytes) :=
  let '(t, lg) := conn_parse_response_line line tx_new in let '(t, lg2) := validate_response_line t in
  (t_proto (x_resp t), t_proton (x_resp t), x_status t, x_statusn t, x_msg t, map lg_code (lg ++ lg2)).
Example C75_ex :
  told_status (s2b "HTTP/1.1 404 Not Found" ++ [13; 10]) = (Some (s2b "HTTP/1.1"), ProtoV1_1, Some (s2b "404"), RnValid 404, Some (s2b "Not Found"), []) /\
  told_status (s2b "HTTP/1.0 2x0" ++ [13; 10]) = (Some (s2b "HTTP/1.0"), ProtoV1_0, Some (s2b "2x0"), RnInvalid, Some [], ["RESPONSE_LINE_INVALID_RESPONSE_STATUS"]%string) /\
  told_status ([0] ++ s2b " HTTP/2 99") = (Some (s2b "HTTP/2"), ProtoInvalid, Some (s2b "99"), RnInvalid, None,
     ["RESPONSE_LINE_INVALID_PROTOCOL"; "RESPONSE_LINE_INVALID_RESPONSE_STATUS"]%string).
Proof. vm_compute. repeat split. Qed.
(** A callback that accepts a request line only as it should be read, and one that accepts a status line only so: both are called, and content. *)
Definition line_env (cb : st -> event -> status) : env := mk_env config_default cb (fun _ _ _ => DRet true false) (fun _ => Some false) (fun _ => None).
Definition line_ops : list op :=
  [OpOpen; OpReq (set_pd_data (Some (s2b "GET /x HTTP/1.1" ++ [13; 10])) pd_default); OpReq (set_pd_data (Some (s2b "Host: a" ++ [13; 10; 13; 10])) pd_default);
   OpResp (set_pd_data (Some (s2b "HTTP/1.1 204 No" ++ [13; 10; 13; 10])) pd_default)].
Definition strict (s : st) (ev : event) : status :=
  match ev_hook ev, tx_get (ev_tx ev) (s_txs s) with
  | HRequestLine, Some t => match x_method t, x_uri t, t_proton (x_req t) with Some m, Some u, ProtoV1_1 => if bytes_eqb m (s2b "GET") && bytes_eqb u (s2b "/x") then SOk else SError | _, _, _ => SError end
  | HResponseLine, Some t => match x_statusn t, x_msg t with RnValid 204, Some m => if bytes_eqb m (s2b "No") then SOk else SError | _, _ => SError end
  | _, _ => SOk
  end.
Example C75_ex_found : let s := snd (history (line_env strict) line_ops) in
  forallb (fun x => match snd x with SOk => true | _ => false end) (s_trace s) = true /\
  length (filter (fun ev => match ev_hook ev with HRequestLine | HResponseLine => true | _ => false end) (events s)) = 2%nat.
Proof. vm_compute. split; reflexivity. Qed.
