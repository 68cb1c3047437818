(** Properties C62, C63 and C64 of properties.jsonl: what a callback finds when it looks at the transaction it is called for.
    Vocabulary: SpecStage.v. In [s_trace s] each call stands with the answer it got, the last call first; [events s] is the list
    of the calls in order. A callback of the model gets the state of the parser and the event, and answers with a status: it
    changes nothing itself. *)
From Verif Require Import ProofsUrl ProofsUri.
From Verif Require Import Base Spec SpecTx SpecMsg SpecHost SpecConn SpecStage SpecDecomp ModelUtil ModelUri ModelHeaders ModelState ModelTx ModelConn ProofsBase ProofsTx ProofsStage.

(** * C62 *)
(** Callbacks are only ever called in the stage their hook announces: two sets of callbacks that answer alike there cannot be told apart,
    whatever they do elsewhere. *)
Theorem C62_only_in_stage : forall e cb, (forall s ev, in_stage (e_cfg e) s ev -> e_cb e s ev = cb s ev) ->
  forall l, history e l = history (with_callbacks cb e) l.
Proof. exact stages_only. Qed.
Print Assumptions C62_only_in_stage.
(** Each call of a history was made in a state where it had that past, in the stage it announces, and its answer is the one recorded. *)
Theorem C62_found : forall e l later ev x past, s_trace (snd (history e l)) = later ++ (ev, x) :: past ->
  exists s, s_trace s = past /\ in_stage (e_cfg e) s ev /\ x = e_cb e s ev.
Proof. intros e l. exact (stages_found e (e_cb e) (fun _ _ _ => eq_refl) l). Qed.
Print Assumptions C62_found.
(** So callbacks that are content with what is announced are content throughout. *)
Theorem C62_never_surprised : forall e, (forall s ev, in_stage (e_cfg e) s ev -> e_cb e s ev = SOk) ->
  forall l ev x, In (ev, x) (s_trace (snd (history e l))) -> x = SOk.
Proof. exact stages_ok. Qed.
Print Assumptions C62_never_surprised.

(** * C63 *)
(** At the end of the header block of a request its framing, its host and the flags for what is wrong with them are decided. *)
Theorem C63_request_decided : forall e l later i d x past, s_trace (snd (history e l)) = later ++ (mk_ev HRequestHeaders i d, x) :: past ->
  exists s t, s_trace s = past /\ tx_get i (s_txs s) = Some t /\ i = s_ridx s /\ request_decided t /\ x = e_cb e s (mk_ev HRequestHeaders i d).
Proof. exact request_headers_found. Qed.
Print Assumptions C63_request_decided.
Theorem C63_request_checks : forall e, (forall s i d t, tx_get i (s_txs s) = Some t -> request_decided t -> e_cb e s (mk_ev HRequestHeaders i d) = SOk) ->
  forall l i d x, In (mk_ev HRequestHeaders i d, x) (s_trace (snd (history e l))) -> x = SOk.
Proof. exact request_headers_ok. Qed.
Print Assumptions C63_request_checks.

(** * C64 *)
(** At the end of the header block of a response it is decided how its body is framed. *)
Theorem C64_response_decided : forall e l later i d x past, s_trace (snd (history e l)) = later ++ (mk_ev HResponseHeaders i d, x) :: past ->
  exists s t, s_trace s = past /\ tx_get i (s_txs s) = Some t /\ i = s_pidx s /\ response_decided t /\ x = e_cb e s (mk_ev HResponseHeaders i d).
Proof. exact response_headers_found. Qed.
Print Assumptions C64_response_decided.
Theorem C64_response_checks : forall e, (forall s i d t, tx_get i (s_txs s) = Some t -> response_decided t -> e_cb e s (mk_ev HResponseHeaders i d) = SOk) ->
  forall l i d x, In (mk_ev HResponseHeaders i d, x) (s_trace (snd (history e l))) -> x = SOk.
Proof. exact response_headers_ok. Qed.
Print Assumptions C64_response_checks.

(** * Cases *)
Definition ex_env (c : config) (cb : st -> event -> status) : env :=
  mk_env c cb (fun _ _ _ => DRet true false) (fun _ => Some false) (fun _ => None).
Definition bytes_chunk (b : bytes) : pdata := set_pd_data (Some b) pd_default.
Definition eol : bytes := [13; 10].
Definition ln (s : string) : bytes := s2b s ++ eol.
Definition get1 : bytes := ln "GET /a HTTP/1.1" ++ ln "Host: h" ++ eol.
Definition resp1 : bytes := ln "HTTP/1.1 200 OK" ++ ln "Content-Length: 3" ++ eol ++ s2b "abc".
(** A callback that refuses everything out of order: it asks for the progress that goes with the hook, and for the framing. *)
Definition wary (s : st) (ev : event) : status :=
  match tx_get (ev_tx ev) (s_txs s) with
  | None => SError
  | Some t =>
      if match ev_hook ev with
         | HRequestStart => prog_eqb (t_prog (x_req t)) PLine
         | HRequestComplete => prog_eqb (t_prog (x_req t)) PComplete
         | HResponseStart => prog_eqb (t_prog (x_resp t)) (if x_is09 t then PBody else PLine)
         | HResponseComplete => prog_eqb (t_prog (x_resp t)) PComplete
         | HTransactionComplete => prog_eqb (t_prog (x_req t)) PComplete && prog_eqb (t_prog (x_resp t)) PComplete
         | HRequestLine => is_some (x_raw t) && is_some (x_parsed t)
         | _ => true
         end then SOk else SError
  end.
Lemma wary_content s ev : in_stage config_default s ev -> wary s ev = SOk.
Proof.
  intros [(t & G & S) _]. unfold wary. rewrite G. destruct (ev_hook ev); try reflexivity; cbn [stage] in S; try (rewrite S; now try destruct (x_is09 t)).
  - destruct S as (S1 & S2 & _). destruct (x_raw t); [|now contradiction S1]. destruct (x_parsed t); [reflexivity|now contradiction S2].
  - destruct S as [S|[-> ->]]; [discriminate S|reflexivity].
Qed.
Definition post2 : bytes := ln "POST http://a.b:81/x HTTP/1.1" ++ ln "Host: c" ++ ln "Content-Length: 2" ++ ln "Content-Length: 3" ++ eol ++ s2b "xy".
Definition resp2 : bytes := ln "HTTP/1.1 404 No" ++ ln "Transfer-Encoding: chunked" ++ ln "Content-Length: 7" ++ eol ++ ln "3" ++ ln "abc" ++ ln "0" ++ eol.
Definition ex_stage_ops : list op := [OpOpen; OpReq (bytes_chunk get1); OpResp (bytes_chunk resp1); OpReq (bytes_chunk post2); OpResp (bytes_chunk resp2); OpClose].
(** It is content, and was called on every hook of both exchanges. *)
Example C62_ex : let s := snd (history (ex_env config_default wary) ex_stage_ops) in
  map snd (s_trace s) = repeat SOk 36 /\
  map ev_tx (filter (fun ev => match ev_hook ev with HTransactionComplete => true | _ => false end) (events s)) = [0; 1].
Proof. vm_compute. split; reflexivity. Qed.
(** An answer out of stage would be seen: a callback that expects a complete request already at REQUEST_START is let down twice. *)
Example C62_ex_refused :
  let cb := fun s ev => match ev_hook ev, tx_get (ev_tx ev) (s_txs s) with HRequestStart, Some t => if prog_eqb (t_prog (x_req t)) PComplete then SOk else SError | _, _ => SOk end in
  map (fun x => ev_tx (fst x)) (filter (fun x => match snd x with SError => true | _ => false end) (s_trace (snd (history (ex_env config_default cb) ex_stage_ops)))) = [1; 0].
Proof. vm_compute. reflexivity. Qed.
(** The two requests as the callbacks of their header blocks find them: the second has a repeated length, and a host that differs. *)
Definition sees (h : hook) (what : tx -> N) (ops : list op) : list N :=
  let cb n := fun s ev => if hook_eqb (ev_hook ev) h then
    match tx_get (ev_tx ev) (s_txs s) with Some t => if what t =? n then SOk else SError | None => SError end else SOk in
  filter (fun n => forallb (fun x => match snd x with SOk => true | _ => false end) (s_trace (snd (history (ex_env config_default (cb n)) ops)))) [0; 1; 2; 3; 4; 5; 6; 7].
Definition bit (b : bool) (n : N) : N := if b then n else 0.
Example C63_ex :
  sees HRequestHeaders (fun t => bit (fis_set (x_flags t) REQUEST_SMUGGLING) 1 + bit (fis_set (x_flags t) HOST_AMBIGUOUS) 2 + bit (match t_coding (x_req t) with CdIdentity => true | _ => false end) 4)
    [OpOpen; OpReq (bytes_chunk post2)] = [7] /\
  sees HRequestHeaders (fun t => bit (fis_set (x_flags t) REQUEST_SMUGGLING) 1 + bit (fis_set (x_flags t) HOST_AMBIGUOUS) 2 + bit (match t_coding (x_req t) with CdNoBody => true | _ => false end) 4)
    [OpOpen; OpReq (bytes_chunk get1)] = [4].
Proof. vm_compute. split; reflexivity. Qed.
Example C64_ex :
  sees HResponseHeaders (fun t => bit (fis_set (x_flags t) REQUEST_SMUGGLING) 1 + bit (prog_eqb (t_prog (x_resp t)) PBody) 2 + bit (match t_coding (x_resp t) with CdChunked => true | _ => false end) 4)
    [OpOpen; OpReq (bytes_chunk get1); OpResp (bytes_chunk resp2)] = [7] /\
  sees HResponseHeaders (fun t => bit (fis_set (x_flags t) REQUEST_SMUGGLING) 1 + bit (match t_clen (x_resp t) with Some 3 => true | _ => false end) 2 + bit (match t_coding (x_resp t) with CdIdentity => true | _ => false end) 4)
    [OpOpen; OpReq (bytes_chunk get1); OpResp (bytes_chunk resp1)] = [6].
Proof. vm_compute. split; reflexivity. Qed.
