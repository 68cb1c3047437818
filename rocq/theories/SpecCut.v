(** Vocabulary of the property statements about requests that the end of the connection cuts off in their body. *)
From Verif Require Import Base Spec SpecTx ModelUtil ModelState ModelTx ModelConn SpecMsg SpecResp SpecConnect.

(** Whole requests, and one more of which the body, as sent, comes only up to [cu_seen]; all of it in the segments [cu_up]. At least one
    byte of the coded body is missing: of a body of a known length, or of its chunks. *)
Record cut_request := mk_cut_request { cu_whole : list message; cu_message : message; cu_seen : bytes; cu_rest : bytes; cu_up : list bytes }.
Definition good_cut (q : cut_request) : Prop :=
  Forall good_message (cu_whole q) /\ good_message (cu_message q) /\
  content_text (m_content (cu_message q)) = cu_seen q ++ cu_rest q /\
  (exists lost, lost <> [] /\ coded_text (m_content (cu_message q)) = cu_seen q ++ lost) /\
  concat (cu_up q) = texts (cu_whole q) ++ request_text (m_req (cu_message q)) ++ cu_seen q /\
  ~ In [] (cu_up q) /\ clean (cu_whole q ++ [cu_message q]) (cu_up q) (cu_rest q).
(** The body data that arrived. *)
Definition cu_data (q : cut_request) : bytes := body_before (m_content (cu_message q)) (length (cu_seen q)).
(** What the callbacks are told of it: the pieces of its body that arrived, and neither the end of its body nor that it is complete. *)
Definition cut_events (cfg : config) (i : N) (q : cut_request) (es : list event) : Prop :=
  exists ps hs bs, reported cfg (rq_target (m_req (cu_message q))) ps /\ concat hs = block_text (rq_lines (m_req (cu_message q))) ++ [13; 10] /\
    concat bs = cu_data q /\ ~ In [] bs /\
    es = [mk_ev HRequestStart i PlNone] ++ map (fun nv => mk_ev HParam i (PlParam (fst nv) (snd nv))) ps ++
         [mk_ev HRequestUriNormalize i PlNone; mk_ev HRequestLine i PlNone] ++
         map (fun h => mk_ev HRequestHeaderData i (PlData h)) hs ++ [mk_ev HRequestHeaders i PlNone] ++
         flat_map (fun b => body_piece i (PlData b)) bs.
(** What its transaction holds: its head, the sizes of what arrived, that it is not complete, and nothing of a response. *)
Record cut_asked (q : cut_request) (t : tx) : Prop := {
  cu_method : x_method t = Some (rq_method (m_req (cu_message q)));
  cu_number : x_methodn t = MKnown (rq_method (m_req (cu_message q)));
  cu_target : x_uri t = Some (rq_target (m_req (cu_message q)));
  cu_uri : exists u, x_raw t = Some u /\ located (rq_target (m_req (cu_message q))) u;
  cu_host : forall c l h p, origin_form (rq_target (m_req (cu_message q))) c -> only_line "host" (rq_lines (m_req (cu_message q))) l -> host_text (hl_value l) h p ->
    x_host t = Some (lowers h) /\ x_port t = p;
  cu_protocol : t_proton (x_req t) = ProtoV1_1;
  cu_headers : map view (t_headers (x_req t)) = merged_table (map kv_of (rq_lines (m_req (cu_message q))));
  cu_entity : t_elen (x_req t) = blen (cu_data q);
  cu_sent : t_mlen (x_req t) = blen (cu_seen q);
  cu_started : t_prog (x_req t) <> PNotStarted;
  cu_incomplete : t_prog (x_req t) <> PComplete;
  cu_unanswered : reply_part t = reply_part tx_new }.
(** The configured limits allow it after the conversation. *)
Definition cut_fits (e : env) (before : list round) (q : cut_request) : Prop :=
  talk_fits e before /\
  Forall (fun m => blen (request_text (m_req m)) <= c_field_limit (e_cfg e) /\ blen (block_text (trailer_of (m_content m))) + 2 <= c_field_limit (e_cfg e)) (cu_whole q ++ [cu_message q]) /\
  N.of_nat (length (exchanges before)) + N.of_nat (length (cu_whole q) + 1) < 2 ^ 64 /\
  (if c_auto_destroy (e_cfg e) then 0 else N.of_nat (length (exchanges before))) + N.of_nat (length (cu_whole q) + 1) <= c_max_tx (e_cfg e).
