(** Vocabulary of the property statements about 101 responses: the connection switches to another protocol. *)
From Verif Require Import Base Spec SpecTx ModelState ModelTx ModelConn SpecMsg SpecResp SpecConnect.

(** A response with status 101 that tells of no body. *)
Definition switch (r : response) : Prop :=
  rp_code r = s2b "101" /\ Forall (fun c => c <> 10 /\ c <> 13) (rp_reason r) /\ (forall c x, rp_reason r = c :: x -> is_ascii_ws c = false) /\
  Forall good_hline (rp_lines r) /\ no_line "content-length" (rp_lines r) /\ no_line "transfer-encoding" (rp_lines r) /\
  no_line "content-encoding" (rp_lines r) /\ rp_content r = Plain [].
(** A request and such a response to it, in segments, cut as in a conversation; the last segment of the response is [ug_end] and bytes
    of the new protocol, [ug_extra]. *)
Record upgrade := mk_upgrade { ug_request : message; ug_reply : response; ug_up : list bytes; ug_down : list bytes; ug_end : bytes; ug_extra : bytes }.
Definition good_upgrade (u : upgrade) : Prop :=
  good_message (ug_request u) /\ switch (ug_reply u) /\
  concat (ug_up u) = texts [ug_request u] /\ ~ In [] (ug_up u) /\ clean [ug_request u] (ug_up u) [] /\
  concat (ug_down u) ++ ug_end u = head_text (ug_reply u) /\ ~ In [] (ug_down u) /\ ug_end u <> [] /\
  (forall a b, ug_down u = a ++ b -> concat b ++ ug_end u <> [10] ++ block_text (rp_lines (ug_reply u)) ++ [13; 10]) /\
  smooth (ug_extra u) /\ (rp_lines (ug_reply u) = [] -> ug_extra u = []).
Definition upgrade_ops (u : upgrade) : list op := reqs (ug_up u) ++ resps (ug_down u) ++ [OpResp (pd_slice (ug_end u ++ ug_extra u))].
(** Only its last call reports the tunnel. *)
Definition upgrade_calls (u : upgrade) : list (option sstate) := more (reqs (ug_up u) ++ resps (ug_down u)) ++ [Some SsTunnel].
(** What the callbacks are told of the response. *)
Definition switch_events (i : N) (r : response) (es : list event) : Prop :=
  exists ds, concat ds = block_text (rp_lines r) ++ [13; 10] /\
    es = [mk_ev HResponseStart i PlNone; mk_ev HResponseLine i PlNone] ++ map (fun d => mk_ev HResponseHeaderData i (PlData d)) ds ++ [mk_ev HResponseHeaders i PlNone].
(** What the transaction holds of it. The flag tells whether the new protocol is h2c. *)
Record switched (r : response) (t : tx) : Prop := {
  sw_status : x_status t = Some (rp_code r);
  sw_number : x_statusn t = RnValid 101;
  sw_reason : x_msg t = Some (rp_reason r);
  sw_protocol : t_proton (x_resp t) = ProtoV1_1;
  sw_headers : map view (t_headers (x_resp t)) = merged_table (map kv_of (rp_lines r));
  sw_entity : t_elen (x_resp t) = 0; sw_message : t_mlen (x_resp t) = 0;
  sw_progress : t_prog (x_resp t) = PHeaders;
  sw_silent : no_line "upgrade" (rp_lines r) -> x_h2 t = false;
  sw_named : forall l, only_line "upgrade" (rp_lines r) l ->
    (x_h2 t = true <-> exists a w b, nonul (hl_value l) = a ++ w ++ b /\ name_eq w (s2b "h2c")) }.
(** The configured limits allow it after the conversation. *)
Definition upgrade_fits (e : env) (before : list round) (u : upgrade) : Prop :=
  talk_fits e before /\
  blen (request_text (m_req (ug_request u))) <= c_field_limit (e_cfg e) /\
  blen (block_text (trailer_of (m_content (ug_request u)))) + 2 <= c_field_limit (e_cfg e) /\
  blen (head_text (ug_reply u)) <= c_field_limit (e_cfg e) /\
  N.of_nat (length (exchanges before)) + 1 < 2 ^ 64 /\
  (if c_auto_destroy (e_cfg e) then 1 <= c_max_tx (e_cfg e) else N.of_nat (length (exchanges before)) + 1 <= c_max_tx (e_cfg e)).
