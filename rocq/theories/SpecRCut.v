(** Vocabulary of the property statements about responses that the end of the connection cuts off in their chunks. *)
From Verif Require Import Base Spec SpecTx ModelUtil ModelState ModelTx ModelConn SpecMsg SpecResp SpecConnect.

(** Requests that are answered, except that the body of the last response, which is sent in chunks, comes only up to [ct_seen]. At least
    one byte of its chunks is missing. The requests come in the segments [ct_up], the responses in [ct_down]. *)
Record cut_round := mk_cut_round { ct_whole : list (message * response); ct_message : message; ct_response : response; ct_seen : bytes; ct_rest : bytes;
  ct_up : list bytes; ct_down : list bytes }.
Definition ct_exchanges (c : cut_round) : list (message * response) := ct_whole c ++ [(ct_message c, ct_response c)].
Definition good_cut_round (c : cut_round) : Prop :=
  Forall (fun x => good_message (fst x) /\ good_response (fst x) (snd x)) (ct_exchanges c) /\
  (exists cs la tr, rp_content (ct_response c) = Chunked cs la tr) /\
  content_text (rp_content (ct_response c)) = ct_seen c ++ ct_rest c /\
  (exists lost, lost <> [] /\ coded_text (rp_content (ct_response c)) = ct_seen c ++ lost) /\
  concat (ct_up c) = texts (map fst (ct_exchanges c)) /\ ~ In [] (ct_up c) /\ clean (map fst (ct_exchanges c)) (ct_up c) [] /\
  concat (ct_down c) = rtexts (map snd (ct_whole c)) ++ head_text (ct_response c) ++ ct_seen c /\ ~ In [] (ct_down c) /\
  reply_clean (map snd (ct_exchanges c)) (ct_down c) (ct_rest c) /\ apart (map snd (ct_exchanges c)) (ct_down c) (ct_rest c).
Definition cut_round_ops (c : cut_round) : list op := map (fun x => OpReq (pd_slice x)) (ct_up c) ++ map (fun x => OpResp (pd_slice x)) (ct_down c).
(** The body data that arrived. *)
Definition ct_data (c : cut_round) : bytes := body_before (rp_content (ct_response c)) (length (ct_seen c)).
(** What the callbacks are told of it: the pieces of its body that arrived, and neither the end of its body nor that it is complete. *)
Definition cut_reply_events (i : N) (c : cut_round) (es : list event) : Prop :=
  exists hs bs, concat hs = block_text (rp_lines (ct_response c)) ++ [13; 10] /\ concat bs = ct_data c /\ ~ In [] bs /\
    es = [mk_ev HResponseStart i PlNone; mk_ev HResponseLine i PlNone] ++
         map (fun h => mk_ev HResponseHeaderData i (PlData h)) hs ++ [mk_ev HResponseHeaders i PlNone] ++
         flat_map (fun b => reply_piece i (PlData b)) bs.
(** What its transaction holds: its head, the sizes of what arrived, and that it is not complete. *)
Record cut_answered (c : cut_round) (t : tx) : Prop := {
  ct_status : x_status t = Some (rp_code (ct_response c));
  ct_number : x_statusn t = RnValid (rp_status (ct_response c));
  ct_reason : x_msg t = Some (rp_reason (ct_response c));
  ct_protocol : t_proton (x_resp t) = ProtoV1_1;
  ct_headers : map view (t_headers (x_resp t)) = merged_table (map kv_of (rp_lines (ct_response c)));
  ct_entity : t_elen (x_resp t) = blen (ct_data c);
  ct_sent : t_mlen (x_resp t) = blen (ct_seen c);
  ct_incomplete : t_prog (x_resp t) <> PComplete }.
(** The configured limits allow it after the conversation. *)
Definition cut_round_fits (e : env) (before : list round) (c : cut_round) : Prop :=
  talk_fits e before /\
  Forall (fun x => blen (request_text (m_req (fst x))) <= c_field_limit (e_cfg e) /\
                   blen (block_text (trailer_of (m_content (fst x)))) + 2 <= c_field_limit (e_cfg e) /\
                   blen (head_text (snd x)) <= c_field_limit (e_cfg e) /\
                   blen (block_text (trailer_of (rp_content (snd x)))) + 2 <= c_field_limit (e_cfg e)) (ct_exchanges c) /\
  N.of_nat (length (exchanges before)) + N.of_nat (length (ct_whole c) + 1) < 2 ^ 64 /\
  (if c_auto_destroy (e_cfg e) then 0 else N.of_nat (length (exchanges before))) + N.of_nat (length (ct_whole c) + 1) <= c_max_tx (e_cfg e).
