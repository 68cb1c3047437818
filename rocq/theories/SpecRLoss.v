(** Vocabulary of the property statements about lost bytes in the body of a response. The parts of a body: SpecLoss.v. *)
From Verif Require Import Base Spec SpecTx ModelUtil ModelState ModelTx ModelConn SpecMsg SpecResp SpecConnect SpecLoss.

(** * A round in which bytes of a response are lost *)
(** Requests are sent; the first response arrives up to a place in its body, in segments, the rest of its body in parts, and then the
    other responses in segments. *)
Record torn := mk_torn {
  tn_asked : message; tn_reply : response; tn_others : list (message * response); tn_up : list bytes;
  tn_head : list bytes; tn_seen : bytes; tn_rest : bytes; tn_parts : list part; tn_told : list payload; tn_down : list bytes }.
Definition tn_exchanges (q : torn) : list (message * response) := (tn_asked q, tn_reply q) :: tn_others q.
Definition good_torn (q : torn) : Prop :=
  Forall (fun x => good_message (fst x) /\ good_response (fst x) (snd x)) (tn_exchanges q) /\
  concat (tn_up q) = texts (map fst (tn_exchanges q)) /\ ~ In [] (tn_up q) /\ clean (map fst (tn_exchanges q)) (tn_up q) [] /\
  rp_content (tn_reply q) = Plain (tn_seen q ++ tn_rest q) /\
  concat (tn_head q) = head_text (tn_reply q) ++ tn_seen q /\ ~ In [] (tn_head q) /\
  reply_clean [tn_reply q] (tn_head q) (tn_rest q) /\
  lossy (tn_rest q) (tn_parts q) (tn_told q) /\
  concat (tn_down q) = rtexts (map snd (tn_others q)) /\ ~ In [] (tn_down q) /\
  reply_clean (map snd (tn_others q)) (tn_down q) [] /\ apart (map snd (tn_others q)) (tn_down q) [].
Definition torn_ops (q : torn) : list op := reqs (tn_up q) ++ resps (tn_head q) ++ part_ops SResp (tn_parts q) ++ resps (tn_down q).
Definition torn_calls (q : torn) : list (option sstate) := more (reqs (tn_up q)) ++ more (resps (tn_head q)) ++ part_calls (tn_parts q) ++ more (resps (tn_down q)).
(** What the callbacks are told of the response: each part is a piece of the body. *)
Definition torn_events (i : N) (q : torn) (es : list event) : Prop :=
  exists hs bs, concat hs = block_text (rp_lines (tn_reply q)) ++ [13; 10] /\ concat bs = tn_seen q /\ ~ In [] bs /\
    es = [mk_ev HResponseStart i PlNone; mk_ev HResponseLine i PlNone] ++
         map (fun h => mk_ev HResponseHeaderData i (PlData h)) hs ++ [mk_ev HResponseHeaders i PlNone] ++
         flat_map (fun b => reply_piece i (PlData b)) bs ++ flat_map (reply_piece i) (tn_told q) ++
         [mk_ev HResponseComplete i PlNone; mk_ev HTransactionComplete i PlNone].
(** What the transaction holds about it: as for the same response without loss, but for the number of body bytes that arrived, and that
    some did not is in the flags. *)
Record lossily_answered (q : torn) (t : tx) : Prop := {
  lw_status : x_status t = Some (rp_code (tn_reply q));
  lw_number : x_statusn t = RnValid (rp_status (tn_reply q));
  lw_reason : x_msg t = Some (rp_reason (tn_reply q));
  lw_protocol : t_proton (x_resp t) = ProtoV1_1;
  lw_headers : map view (t_headers (x_resp t)) = merged_table (map kv_of (rp_lines (tn_reply q)));
  lw_entity : t_elen (x_resp t) = blen (tn_seen q ++ arrived (tn_parts q));
  lw_message : t_mlen (x_resp t) = blen (tn_seen q ++ tn_rest q);
  lw_progress : t_prog (x_resp t) = PComplete;
  lw_flag : some_lost (tn_parts q) -> N.lor (x_flags t) RESPONSE_MISSING_BYTES = x_flags t }.

(** * Conversations in which bytes are lost *)
Inductive stage := Whole (rd : round) | Torn (q : torn).
Definition good_stage (g : stage) : Prop := match g with Whole rd => good_round rd | Torn q => good_torn q end.
Definition stage_exchanges (g : stage) : list (message * response) := match g with Whole rd => rd_exchanges rd | Torn q => tn_exchanges q end.
Definition stage_ops (g : stage) : list op := match g with Whole rd => round_ops rd | Torn q => torn_ops q end.
Definition stage_calls (g : stage) : list (option sstate) := match g with Whole rd => more (round_ops rd) | Torn q => torn_calls q end.
Definition staged_talk (gs : list stage) : list op := OpOpen :: concat (map stage_ops gs).
Definition staged_calls (gs : list stage) : list (option sstate) := None :: concat (map stage_calls gs).
Definition staged_exchanges (gs : list stage) : list (message * response) := concat (map stage_exchanges gs).
Inductive staged_events (cfg : config) : N -> list stage -> list event -> Prop :=
| sv_nil i : staged_events cfg i [] []
| sv_whole i rd gs es1 es2 es3 : stream_events cfg i (rd_asked rd) es1 -> reply_events i (rd_answers rd) es2 ->
    staged_events cfg (i + N.of_nat (length (rd_exchanges rd))) gs es3 -> staged_events cfg i (Whole rd :: gs) (es1 ++ es2 ++ es3)
| sv_torn i q gs es1 es2 es3 es4 : stream_events cfg i (map fst (tn_exchanges q)) es1 -> torn_events i q es2 -> reply_events (i + 1) (map snd (tn_others q)) es3 ->
    staged_events cfg (i + N.of_nat (length (tn_exchanges q))) gs es4 -> staged_events cfg i (Torn q :: gs) (es1 ++ es2 ++ es3 ++ es4).
(** Which transaction comes out with what: [f t] for each exchange, in order. *)
Definition outcomes (g : stage) : list (tx -> Prop) :=
  match g with
  | Whole rd => map (fun x t => asked (fst x) t /\ answered (snd x) t) (rd_exchanges rd)
  | Torn q => (fun t => asked (tn_asked q) t /\ lossily_answered q t) :: map (fun x t => asked (fst x) t /\ answered (snd x) t) (tn_others q)
  end.
Definition staged_outcomes (gs : list stage) : list (tx -> Prop) := concat (map outcomes gs).
(** The configured limits allow it. *)
Definition staged_fits (e : env) (gs : list stage) : Prop :=
  Forall (fun x => blen (request_text (m_req (fst x))) <= c_field_limit (e_cfg e) /\
                   blen (block_text (trailer_of (m_content (fst x)))) + 2 <= c_field_limit (e_cfg e) /\
                   blen (head_text (snd x)) <= c_field_limit (e_cfg e) /\
                   blen (block_text (trailer_of (rp_content (snd x)))) + 2 <= c_field_limit (e_cfg e)) (staged_exchanges gs) /\
  N.of_nat (length (staged_exchanges gs)) < 2 ^ 64 /\
  (if c_auto_destroy (e_cfg e) then Forall (fun g => N.of_nat (length (stage_exchanges g)) <= c_max_tx (e_cfg e)) gs
   else N.of_nat (length (staged_exchanges gs)) <= c_max_tx (e_cfg e)).
