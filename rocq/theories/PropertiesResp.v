(** Properties C22 (responses), C56 and C57 of properties.jsonl: conversations of well-formed requests and responses. Responses,
    their text, what is expected of them, and the conditions on the cuts: SpecResp.v. *)
From Verif Require Import Base Spec SpecTx SpecMsg SpecResp ModelState ModelTx ModelConn SpecConn ProofsTalk ProofsRMsg PropertiesConn PropertiesMsg.

(** Responses for the examples: with a body and a repeated header, chunked with a trailer, without header lines, and chunked without
    trailer. *)
Definition rsp1 : response := mk_response (s2b "200") (s2b "OK") [hl "Server" "x"; hl "X-B" "1"; hl "Content-Length" "5"; hl "x-b" "2"] (Plain (s2b "world")).
Definition rsp2 : response := mk_response (s2b "200") [] [hl "Transfer-Encoding" "chunked"]
  (Chunked [ck "00a" ";x=1" "0123456789"; ck "3" "" "abc"] (ck "0" "" "") [hl "X-Sum" "17"]).
Definition rsp3 : response := mk_response (s2b "204") (s2b "No Content") [] (Plain []).
Definition rsp4 : response := mk_response (s2b "404") (s2b "Not Found") [hl "Transfer-Encoding" "chunked"] (Chunked [ck "3" "" "abc"] (ck "0" "" "") []).
(** Three rounds: two requests and their answers; one request, answered in small pieces; two requests, the answer to the first of
    which ends a segment. *)
Definition ex_rounds : list round :=
  [mk_round [(msg1, rsp1); (msg4, rsp2)] (cut_by 40 99 (texts [msg1; msg4])) (cut_by 26 99 (rtexts [rsp1; rsp2]));
   mk_round [(msg2, rsp1)] [texts [msg2]] (cut_by 3 99 (rtexts [rsp1]));
   mk_round [(msg3, rsp4); (msg3, rsp3)] (cut_by 10 99 (texts [msg3; msg3])) (cut_by 6 99 (rtexts [rsp4]) ++ [rtexts [rsp3]])].
Definition ex_whole : list round :=
  [mk_round [(msg1, rsp1); (msg4, rsp2)] [texts [msg1; msg4]] [rtexts [rsp1; rsp2]]; mk_round [(msg2, rsp1)] [texts [msg2]] [rtexts [rsp1]];
   mk_round [(msg3, rsp4)] [texts [msg3]] [rtexts [rsp4]]; mk_round [(msg3, rsp3)] [texts [msg3]] [rtexts [rsp3]]].
Definition destroying : env := ex_env (set_c_auto_destroy true config_default) (fun _ _ => SOk).
Lemma ex_rounds_good : Forall good_round ex_rounds. Proof. apply roundsb_sound. vm_compute. reflexivity. Qed.
Lemma ex_whole_good : Forall good_round ex_whole. Proof. apply roundsb_sound. vm_compute. reflexivity. Qed.

(** * C56 *)
(** Every request of the conversation is read and matched with its response: every call asks for more, the callbacks of exchange
    [k] run in the order and with the data of [message_events] and [response_events], and its transaction holds what both say;
    unless complete transactions are freed, in which case it is gone. *)
Theorem C56_conversation_is_parsed : forall e rounds, accepting e -> Forall good_round rounds -> talk_fits e rounds ->
  exists s, history e (conversation rounds) = (ROk (all_calls rounds), s) /\ conversation_events (e_cfg e) 0 rounds (events s) /\
    (forall k m r, nth_error (exchanges rounds) k = Some (m, r) ->
      if c_auto_destroy (e_cfg e) then tx_get (N.of_nat k) (s_txs s) = None
      else exists t, tx_get (N.of_nat k) (s_txs s) = Some t /\ asked m t /\ answered r t).
Proof. exact talk_parsed. Qed.
Print Assumptions C56_conversation_is_parsed.
Definition fitsb (e : env) (rds : list round) : bool :=
  forallb (fun x => (blen (request_text (m_req (fst x))) <=? c_field_limit (e_cfg e)) && (blen (block_text (trailer_of (m_content (fst x)))) + 2 <=? c_field_limit (e_cfg e)) &&
                    (blen (head_text (snd x)) <=? c_field_limit (e_cfg e)) && (blen (block_text (trailer_of (rp_content (snd x)))) + 2 <=? c_field_limit (e_cfg e))) (exchanges rds) &&
  (N.of_nat (length (exchanges rds)) <? 2 ^ 64) &&
  (if c_auto_destroy (e_cfg e) then forallb (fun r => N.of_nat (length (rd_exchanges r)) <=? c_max_tx (e_cfg e)) rds else N.of_nat (length (exchanges rds)) <=? c_max_tx (e_cfg e)).
Lemma fitsb_sound e rds : fitsb e rds = true -> talk_fits e rds.
Proof.
  unfold fitsb, talk_fits. intros H. apply andb_prop in H. destruct H as [H H3]. apply andb_prop in H. destruct H as [H1 H2]. split; [|split].
  - apply Forall_forall. intros x Hx. pose proof (proj1 (forallb_forall _ _) H1 x Hx) as H. apply andb_prop in H. destruct H as [H H7]. apply andb_prop in H. destruct H as [H H6].
    apply andb_prop in H. destruct H as [H4 H5]. repeat split; now apply N.leb_le.
  - now apply N.ltb_lt.
  - destruct (c_auto_destroy (e_cfg e)); [|now apply N.leb_le]. apply Forall_forall. intros x Hx. apply N.leb_le. exact (proj1 (forallb_forall _ _) H3 x Hx).
Qed.
Lemma destroying_accepts : accepting destroying. Proof. split; [intros s ev; left; reflexivity|intros; reflexivity]. Qed.
Example C56_ex : Forall good_round ex_rounds /\ accepting ok_env /\ accepting destroying /\ talk_fits ok_env ex_rounds /\ talk_fits destroying ex_rounds /\
  exchanges ex_rounds = [(msg1, rsp1); (msg4, rsp2); (msg2, rsp1); (msg3, rsp4); (msg3, rsp3)] /\ length (conversation ex_rounds) = 55%nat /\
  c_auto_destroy (e_cfg ok_env) = false /\ c_auto_destroy (e_cfg destroying) = true.
Proof.
  split; [exact ex_rounds_good|]. split; [exact ex_accepting|]. split; [exact destroying_accepts|].
  split; [apply fitsb_sound; vm_compute; reflexivity|]. split; [apply fitsb_sound; vm_compute; reflexivity|]. repeat split; vm_compute; reflexivity.
Qed.

(** * C57 *)
(** In such a conversation the body of each request and of each response reaches the callbacks of its own transaction whole, once and
    in order, without the chunk framing. *)
Theorem C57_conversation_bodies_exact : forall e rounds, accepting e -> Forall good_round rounds -> talk_fits e rounds ->
  exists s, history e (conversation rounds) = (ROk (all_calls rounds), s) /\
    forall k m r, nth_error (exchanges rounds) k = Some (m, r) ->
      body_of (N.of_nat k) (events s) = m_body m /\ reply_body_of (N.of_nat k) (events s) = rp_body r.
Proof. exact talk_bodies_exact. Qed.
Print Assumptions C57_conversation_bodies_exact.
(** The hypotheses are those of C56; the bodies of its conversation. *)
Example C57_ex : map (fun x => (m_body (fst x), rp_body (snd x))) (exchanges ex_rounds) =
  [([], s2b "world"); (m_body msg4, s2b "0123456789abc"); (m_body msg2, s2b "world"); ([], s2b "abc"); ([], [])] /\ m_body msg4 <> [] /\ m_body msg2 <> [] /\
  let s := snd (history ok_env (conversation ex_rounds)) in map (fun i => reply_body_of i (events s)) [0; 1; 2; 3; 4] = map (fun x => rp_body (snd x)) (exchanges ex_rounds).
Proof. split; [vm_compute; reflexivity|]. split; [discriminate|]. split; [discriminate|]. vm_compute. reflexivity. Qed.

(** * C22, header tables of responses *)
(** However the conversation is cut and arranged in rounds, the header tables of exchange [k] are what its header lines and trailer
    lines say. *)
Theorem C22_conversation_header_tables : forall e rounds rounds', accepting e -> c_auto_destroy (e_cfg e) = false ->
  Forall good_round rounds -> talk_fits e rounds -> Forall good_round rounds' -> talk_fits e rounds' -> exchanges rounds = exchanges rounds' ->
  exists s s', history e (conversation rounds) = (ROk (all_calls rounds), s) /\ history e (conversation rounds') = (ROk (all_calls rounds'), s') /\
    forall k m r, nth_error (exchanges rounds) k = Some (m, r) -> exists t t',
      tx_get (N.of_nat k) (s_txs s) = Some t /\ tx_get (N.of_nat k) (s_txs s') = Some t' /\
      map view (t_headers (x_resp t)) = map view (t_headers (x_resp t')) /\
      map view (t_headers (x_resp t)) = merged_table (map kv_of (rp_lines r ++ trailer_of (rp_content r))) /\
      map view (t_headers (x_req t)) = map view (t_headers (x_req t')) /\
      map view (t_headers (x_req t)) = merged_table (map kv_of (rq_lines (m_req m) ++ trailer_of (m_content m))).
Proof. exact talk_headers. Qed.
Print Assumptions C22_conversation_header_tables.
Example C22_conversation_ex : Forall good_round ex_whole /\ talk_fits ok_env ex_whole /\ exchanges ex_rounds = exchanges ex_whole /\ ex_rounds <> ex_whole /\
  merged_table (map kv_of (rp_lines rsp1)) = [(s2b "Server", s2b "x", false); (s2b "X-B", s2b "1, 2", true); (s2b "Content-Length", s2b "5", false)].
Proof.
  split; [exact ex_whole_good|]. split; [apply fitsb_sound; vm_compute; reflexivity|]. split; [reflexivity|]. split; [|vm_compute; reflexivity].
  intros E. apply (f_equal (@length round)) in E. discriminate.
Qed.

(** * Why the cuts and the responses are restricted *)
(** What the transactions of the requests [up] hold about the responses, and the response bodies delivered, after [up] was sent in one
    segment and [cs] received. *)
Definition got (up : list message) (cs : list bytes) :=
  let s := snd (history ok_env (OpOpen :: OpReq (pd_slice (texts up)) :: map (fun c => OpResp (pd_slice c)) cs)) in
  map (fun p => (x_status (snd p), map (fun h => fst (fst (view h))) (t_headers (x_resp (snd p))), t_mlen (x_resp (snd p)), t_prog (x_resp (snd p)), reply_body_of (fst p) (events s))) (firstn (length up) (s_txs s)).
(** Byte by byte, a response is never recognised. *)
Theorem C56_bytewise_refuted :
  got [msg1] [rtexts [rsp1]] = [(Some (s2b "200"), map s2b ["Server"; "X-B"; "Content-Length"]%string, 5, PComplete, s2b "world")] /\
  got [msg1] (map (fun c => [c]) (rtexts [rsp1])) = [(None, [], 0, PLine, [])].
Proof. split; vm_compute; reflexivity. Qed.
Print Assumptions C56_bytewise_refuted.
(** With segments that end before and after the LF of the status line, the first header line is lost. *)
Theorem C22_status_line_cut_refuted : let t := rtexts [rsp1] in
  got [msg1] [firstn 16 t; firstn 1 (skipn 16 t); skipn 17 t] = [(Some (s2b "200"), map s2b ["X-B"; "Content-Length"]%string, 5, PComplete, s2b "world")].
Proof. vm_compute. reflexivity. Qed.
Print Assumptions C22_status_line_cut_refuted.
(** With the segment ending before the CR of a size line, the data of the chunk is lost and the framing of the next one is delivered. *)
Theorem C57_size_line_cut_refuted : let t := rtexts [rsp2] in let n := length (head_text rsp2 ++ s2b "00a;x=1") in
  rp_body rsp2 = s2b "0123456789abc" /\
  map snd (got [msg1] [t]) = [s2b "0123456789abc"] /\ map snd (got [msg1] [firstn n t; skipn n t]) <> [s2b "0123456789abc"].
Proof. split; [|split]; vm_compute; [reflexivity|reflexivity|discriminate]. Qed.
Print Assumptions C57_size_line_cut_refuted.
(** A response whose last block of lines is empty hides the next one when both come in one segment. *)
Theorem C56_next_response_hidden_refuted :
  got [msg1; msg3] [rtexts [rsp4]; rtexts [rsp1]] =
    [(Some (s2b "404"), [s2b "Transfer-Encoding"], 11, PComplete, s2b "abc"); (Some (s2b "200"), map s2b ["Server"; "X-B"; "Content-Length"]%string, 5, PComplete, s2b "world")] /\
  got [msg1; msg3] [rtexts [rsp4; rsp1]] = [(Some (s2b "404"), [s2b "Transfer-Encoding"], 11, PTrailer, s2b "abc"); (None, [], 0, PNotStarted, [])] /\
  got [msg1; msg3] [rtexts [rsp3; rsp1]] = [(Some (s2b "204"), [], 0, PHeaders, []); (None, [], 0, PNotStarted, [])].
Proof. split; [|split]; vm_compute; reflexivity. Qed.
Print Assumptions C56_next_response_hidden_refuted.
(** A body that begins like the end of a header block loses these bytes, when it comes in the segment of the header block. *)
Theorem C57_body_start_refuted : let r b := mk_response (s2b "200") (s2b "OK") [hl "Content-Length" "5"] (Plain b) in
  map snd (got [msg1] [rtexts [r ([13; 13; 10] ++ s2b "ab")]]) = [s2b "ab"] /\ map snd (got [msg1] [rtexts [r ([32; 13; 10] ++ s2b "ab")]]) = [s2b "ab"].
Proof. split; vm_compute; reflexivity. Qed.
Print Assumptions C57_body_start_refuted.
