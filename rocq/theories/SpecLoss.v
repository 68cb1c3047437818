(** Vocabulary of the property statements about lost bytes: a body of which parts do not arrive. *)
From Verif Require Import Base Spec SpecTx ModelUtil ModelState ModelTx ModelConn SpecMsg SpecResp SpecConnect.

(** The parts of a body: bytes that arrive, or a number of bytes that the user says are missing. *)
Inductive part := Arrived (b : bytes) | Lost (n : N).
Definition part_op (sd : side) (p : part) : op :=
  let c := match p with Arrived b => pd_slice b | Lost n => pd_gapped n end in match sd with SReq => OpReq c | SResp => OpResp c end.
Definition part_ops (sd : side) (ps : list part) : list op := map (part_op sd) ps.
(** [body] comes in the parts [ps], of which the body callbacks are told [ds]. A gap that ends the body may be said to be longer. *)
Inductive lossy : bytes -> list part -> list payload -> Prop :=
| ly_end b : b <> [] -> lossy b [Arrived b] [PlData b]
| ly_cut b n : b <> [] -> blen b <= n -> lossy b [Lost n] [PlGap (blen b)]
| ly_arrived b rest ps ds : b <> [] -> lossy rest ps ds -> lossy (b ++ rest) (Arrived b :: ps) (PlData b :: ds)
| ly_lost b rest ps ds : b <> [] -> lossy rest ps ds -> lossy (b ++ rest) (Lost (blen b) :: ps) (PlGap (blen b) :: ds).
Fixpoint arrived (ps : list part) : bytes :=
  match ps with [] => [] | Arrived b :: r => b ++ arrived r | Lost _ :: r => arrived r end.
Definition some_lost (ps : list part) : Prop := exists n, In (Lost n) ps.
(** What the calls return: a gap that ends the body is answered with "closed", everything else with a request for more. *)
Fixpoint part_calls (ps : list part) : list (option sstate) :=
  match ps with [] => [] | [Lost _] => [Some SsClosed] | _ :: r => Some SsData :: part_calls r end.

(** * A request with lost bytes *)
(** The request arrives up to a place in its body, in segments, and the rest of the body in parts. *)
Record lossy_request := mk_lossy_request { lq_message : message; lq_up : list bytes; lq_seen : bytes; lq_rest : bytes; lq_parts : list part; lq_told : list payload }.
Definition good_lossy_request (q : lossy_request) : Prop :=
  good_message (lq_message q) /\ m_content (lq_message q) = Plain (lq_seen q ++ lq_rest q) /\
  concat (lq_up q) = request_text (m_req (lq_message q)) ++ lq_seen q /\ ~ In [] (lq_up q) /\ clean [lq_message q] (lq_up q) (lq_rest q) /\
  lossy (lq_rest q) (lq_parts q) (lq_told q).
(** What the callbacks are told: each part is a piece of the body; the end of the body is signalled twice. *)
Definition lossy_events (cfg : config) (i : N) (q : lossy_request) (es : list event) : Prop :=
  exists ps hs bs, reported cfg (rq_target (m_req (lq_message q))) ps /\ concat hs = block_text (rq_lines (m_req (lq_message q))) ++ [13; 10] /\
    concat bs = lq_seen q /\ ~ In [] bs /\
    es = [mk_ev HRequestStart i PlNone] ++ map (fun nv => mk_ev HParam i (PlParam (fst nv) (snd nv))) ps ++
         [mk_ev HRequestUriNormalize i PlNone; mk_ev HRequestLine i PlNone] ++
         map (fun h => mk_ev HRequestHeaderData i (PlData h)) hs ++ [mk_ev HRequestHeaders i PlNone] ++
         flat_map (fun b => body_piece i (PlData b)) bs ++ flat_map (body_piece i) (lq_told q) ++
         body_piece i PlNone ++ body_piece i PlNone ++ [mk_ev HRequestComplete i PlNone].
(** What the transaction holds: as for the same request without loss, but for the number of body bytes that arrived, and that some did
    not is in the flags. *)
Record lossily_asked (q : lossy_request) (t : tx) : Prop := {
  la_method : x_method t = Some (rq_method (m_req (lq_message q)));
  la_number : x_methodn t = MKnown (rq_method (m_req (lq_message q)));
  la_target : x_uri t = Some (rq_target (m_req (lq_message q)));
  la_uri : exists u, x_raw t = Some u /\ located (rq_target (m_req (lq_message q))) u;
  la_host : forall c l h p, origin_form (rq_target (m_req (lq_message q))) c -> only_line "host" (rq_lines (m_req (lq_message q))) l -> host_text (hl_value l) h p ->
    x_host t = Some (lowers h) /\ x_port t = p;
  la_protocol : t_proton (x_req t) = ProtoV1_1;
  la_headers : map view (t_headers (x_req t)) = merged_table (map kv_of (rq_lines (m_req (lq_message q))));
  la_entity : t_elen (x_req t) = blen (lq_seen q ++ arrived (lq_parts q));
  la_message : t_mlen (x_req t) = blen (lq_seen q ++ lq_rest q);
  la_progress : t_prog (x_req t) = PComplete;
  la_flag : some_lost (lq_parts q) -> N.lor (x_flags t) REQUEST_MISSING_BYTES = x_flags t }.
(** Further requests, in segments. *)
Definition good_requests (ms : list message) (cs : list bytes) : Prop :=
  Forall good_message ms /\ concat cs = texts ms /\ ~ In [] cs /\ clean ms cs [].
Definition lossy_ops (q : lossy_request) (cs : list bytes) : list op := reqs (lq_up q) ++ part_ops SReq (lq_parts q) ++ reqs cs.
Definition lossy_calls (q : lossy_request) (cs : list bytes) : list (option sstate) := more (reqs (lq_up q)) ++ part_calls (lq_parts q) ++ more (reqs cs).
(** The configured limits allow it after the conversation. *)
Definition lossy_fits (e : env) (before : list round) (q : lossy_request) (ms : list message) : Prop :=
  talk_fits e before /\
  Forall (fun m => blen (request_text (m_req m)) <= c_field_limit (e_cfg e) /\ blen (block_text (trailer_of (m_content m))) + 2 <= c_field_limit (e_cfg e)) (lq_message q :: ms) /\
  N.of_nat (length (exchanges before)) + N.of_nat (length (lq_message q :: ms)) < 2 ^ 64 /\
  (if c_auto_destroy (e_cfg e) then 0 else N.of_nat (length (exchanges before))) + N.of_nat (length (lq_message q :: ms)) <= c_max_tx (e_cfg e).
