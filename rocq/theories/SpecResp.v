(** Vocabulary of the property statements about well-formed responses and conversations. *)
From Verif Require Import Base Spec SpecTx ModelState ModelTx ModelConn SpecMsg.

(** * Responses *)
Record response := mk_response { rp_code : bytes; rp_reason : bytes; rp_lines : list hline; rp_content : content }.
Definition rp_body (r : response) : bytes := data_of (rp_content r).
Definition rp_status (r : response) : N := dec_value (rp_code r).
Definition status_line_text (r : response) : bytes := s2b "HTTP/1.1 " ++ rp_code r ++ [32] ++ rp_reason r ++ [13; 10].
Definition head_text (r : response) : bytes := status_line_text r ++ block_text (rp_lines r) ++ [13; 10].
Definition response_text (r : response) : bytes := head_text r ++ content_text (rp_content r).
Definition rtexts (rs : list response) : bytes := concat (map response_text rs).

(** A response without body, whatever its length fields say, to [m]. *)
Definition bodiless (m : message) (r : response) : Prop :=
  rq_method (m_req m) = s2b "HEAD" \/
  ((rp_status r = 204 \/ rp_status r = 304) /\ no_line "content-length" (rp_lines r) /\ no_line "transfer-encoding" (rp_lines r)).
(** The other bodies are as long as Content-Length says, or chunked when Transfer-Encoding says so. *)
Definition delimited (ls : list hline) (c : content) : Prop :=
  match c with
  | Plain body => (exists l, first_line "content-length" ls l /\ hl_value l <> [] /\ Forall digit (hl_value l) /\ dec_value (hl_value l) = blen body) /\
                  no_line "transfer-encoding" ls
  | Chunked _ _ _ => exists l, first_line "transfer-encoding" ls l /\ name_eq (hl_value l) (s2b "chunked")
  end.
(** What follows the empty line of the header block is not taken for part of it. *)
Definition smooth (body : bytes) : Prop :=
  (forall x, body <> 13 :: x) /\ (forall b c x, sp_or_tab b -> c = 10 \/ c = 13 -> body <> b :: c :: x).
(** A final response (200-999) to [m]; a refusal (4xx) does not answer a request that expects to be told to go on. *)
Definition good_response (m : message) (r : response) : Prop :=
  length (rp_code r) = 3%nat /\ Forall digit (rp_code r) /\ 200 <= rp_status r /\
  Forall (fun c => c <> 10 /\ c <> 13) (rp_reason r) /\ (forall c x, rp_reason r = c :: x -> is_ascii_ws c = false) /\
  Forall good_hline (rp_lines r) /\ no_line "content-encoding" (rp_lines r) /\
  blen (coded_text (rp_content r)) < 2 ^ 64 /\ good_content (rp_content r) /\
  ((bodiless m r /\ rp_content r = Plain []) \/ (~ bodiless m r /\ delimited (rp_lines r) (rp_content r) /\ smooth (content_text (rp_content r)))) /\
  (400 <= rp_status r <= 499 -> no_line "expect" (rq_lines (m_req m) ++ trailer_of (m_content m))).

(** * What the callbacks are told about response [i], in order of time *)
Definition reply_piece (i : N) (d : payload) : list event := [mk_ev HResponseBodyTx i d; mk_ev HResponseBody i d].
Definition reply_trailer_events (i : N) (c : content) (es : list event) : Prop :=
  match c with
  | Plain _ => es = []
  | Chunked _ _ tr => exists hs, concat hs = block_text tr ++ [13; 10] /\
      es = map (fun h => mk_ev HResponseTrailerData i (PlData h)) hs ++ [mk_ev HResponseTrailer i PlNone]
  end.
(** The header block arrives in pieces [hs] and the body in non-empty pieces [bs]; the request being complete, the end of the
    response ends the transaction. *)
Definition response_events (i : N) (r : response) (es : list event) : Prop :=
  exists hs bs ts, concat hs = block_text (rp_lines r) ++ [13; 10] /\ concat bs = rp_body r /\ ~ In [] bs /\
    reply_trailer_events i (rp_content r) ts /\
    es = [mk_ev HResponseStart i PlNone; mk_ev HResponseLine i PlNone] ++
         map (fun h => mk_ev HResponseHeaderData i (PlData h)) hs ++ [mk_ev HResponseHeaders i PlNone] ++
         flat_map (fun b => reply_piece i (PlData b)) bs ++ ts ++ [mk_ev HResponseComplete i PlNone; mk_ev HTransactionComplete i PlNone].
Inductive reply_events : N -> list response -> list event -> Prop :=
| re_nil i : reply_events i [] []
| re_cons i r rs es es' : response_events i r es -> reply_events (i + 1) rs es' -> reply_events i (r :: rs) (es ++ es').

(** * What the transaction of an answered request holds about the response *)
Record answered (r : response) (t : tx) : Prop := {
  an_status : x_status t = Some (rp_code r);
  an_number : x_statusn t = RnValid (rp_status r);
  an_reason : x_msg t = Some (rp_reason r);
  an_protocol : t_proton (x_resp t) = ProtoV1_1;
  an_headers : map view (t_headers (x_resp t)) = merged_table (map kv_of (rp_lines r ++ trailer_of (rp_content r)));
  an_entity : t_elen (x_resp t) = blen (rp_body r);
  an_message : t_mlen (x_resp t) = blen (coded_text (rp_content r));
  an_progress : t_prog (x_resp t) = PComplete }.

(** * Segmentations *)
(** The places in the text of a response, by what follows them in it, where the stream must not be cut: between the CR and the LF
    that end the status line, and inside the size line of a chunk. *)
Inductive reply_no_cut (r : response) : bytes -> Prop :=
| rn_line : reply_no_cut r ([10] ++ block_text (rp_lines r) ++ [13; 10] ++ content_text (rp_content r))
| rn_size cs last tr c1 c c2 x y : rp_content r = Chunked cs last tr -> cs ++ [last] = c1 ++ c :: c2 -> size_line c = x ++ y -> x <> [] -> y <> [] ->
    reply_no_cut r (y ++ data_text c ++ chunks_text c2 ++ block_text tr ++ [13; 10]).
Definition reply_clean (rs : list response) (cs : list bytes) (rest : bytes) : Prop :=
  forall a b before r after y, cs = a ++ b -> rs = before ++ r :: after -> reply_no_cut r y -> concat b ++ rest <> y ++ rtexts after.
(** The last block of lines of the response is empty. *)
Definition bare (r : response) : Prop := match rp_content r with Plain _ => rp_lines r = [] | Chunked _ _ tr => tr = [] end.
(** A segment that has bytes of such a response has none of what follows it. *)
Definition apart (rs : list response) (cs : list bytes) (rest : bytes) : Prop :=
  forall a x tail b before r after, cs = a ++ (x ++ tail) :: b -> x <> [] -> rs = before ++ r :: after -> bare r ->
    tail ++ concat b ++ rest = rtexts after -> tail = [].

(** * Conversations *)
(** A round: requests are sent, then all of them are answered. *)
Record round := mk_round { rd_exchanges : list (message * response); rd_up : list bytes; rd_down : list bytes }.
Definition rd_asked (r : round) : list message := map fst (rd_exchanges r).
Definition rd_answers (r : round) : list response := map snd (rd_exchanges r).
Definition round_ops (r : round) : list op := map (fun c => OpReq (pd_slice c)) (rd_up r) ++ map (fun c => OpResp (pd_slice c)) (rd_down r).
Definition conversation (rs : list round) : list op := OpOpen :: concat (map round_ops rs).
Definition good_round (r : round) : Prop :=
  Forall (fun x => good_message (fst x) /\ good_response (fst x) (snd x)) (rd_exchanges r) /\
  concat (rd_up r) = texts (rd_asked r) /\ ~ In [] (rd_up r) /\ clean (rd_asked r) (rd_up r) [] /\
  concat (rd_down r) = rtexts (rd_answers r) /\ ~ In [] (rd_down r) /\ reply_clean (rd_answers r) (rd_down r) [] /\ apart (rd_answers r) (rd_down r) [].
(** Each call asks for more. *)
Definition all_calls (rs : list round) : list (option sstate) := None :: map (fun _ => Some SsData) (concat (map round_ops rs)).
Definition exchanges (rs : list round) : list (message * response) := concat (map rd_exchanges rs).
Inductive conversation_events (cfg : config) : N -> list round -> list event -> Prop :=
| cv_nil i : conversation_events cfg i [] []
| cv_cons i r rs es1 es2 es3 : stream_events cfg i (rd_asked r) es1 -> reply_events i (rd_answers r) es2 ->
    conversation_events cfg (i + N.of_nat (length (rd_exchanges r))) rs es3 -> conversation_events cfg i (r :: rs) (es1 ++ es2 ++ es3).
Arguments cv_nil {cfg}. Arguments cv_cons {cfg}.
(** The configured limits allow the conversation. Transactions that are freed when they are complete do not count. *)
Definition talk_fits (e : env) (rs : list round) : Prop :=
  Forall (fun x => blen (request_text (m_req (fst x))) <= c_field_limit (e_cfg e) /\
                   blen (block_text (trailer_of (m_content (fst x)))) + 2 <= c_field_limit (e_cfg e) /\
                   blen (head_text (snd x)) <= c_field_limit (e_cfg e) /\
                   blen (block_text (trailer_of (rp_content (snd x)))) + 2 <= c_field_limit (e_cfg e)) (exchanges rs) /\
  N.of_nat (length (exchanges rs)) < 2 ^ 64 /\
  (if c_auto_destroy (e_cfg e) then Forall (fun r => N.of_nat (length (rd_exchanges r)) <= c_max_tx (e_cfg e)) rs
   else N.of_nat (length (exchanges rs)) <= c_max_tx (e_cfg e)).
(** The body bytes of response [i] handed to the configured callbacks, in order. *)
Definition reply_body_of (i : N) (es : list event) : bytes :=
  flat_map (fun ev => match ev_hook ev, ev_data ev with HResponseBody, PlData b => if ev_tx ev =? i then b else [] | _, _ => [] end) es.
