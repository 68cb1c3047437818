(** Vocabulary of the property statements about interim responses: "100 Continue" before the final response. *)
From Verif Require Import Base Spec SpecTx ModelState ModelTx ModelConn SpecMsg SpecResp SpecConnect.

(** The client is told to go on: a head with status 100 that tells of no body; no more than two of its lines have the same name. *)
Definition interim_head (r : response) : Prop :=
  rp_code r = s2b "100" /\ Forall (fun c => c <> 10 /\ c <> 13) (rp_reason r) /\ (forall c x, rp_reason r = c :: x -> is_ascii_ws c = false) /\
  Forall good_hline (rp_lines r) /\ no_line "content-length" (rp_lines r) /\ no_line "transfer-encoding" (rp_lines r) /\
  (forall x, In x (map kv_of (rp_lines r)) -> (uses x (map kv_of (rp_lines r)) <= 2)%nat) /\ rp_content r = Plain [].
(** The whole status line of [r] is in the first segment. *)
Definition line_first (r : response) (cs : list bytes) : Prop := exists tail rest, cs = (status_line_text r ++ tail) :: rest.
(** The head in segments of its own. *)
Record interim := mk_interim { in_head : response; in_segments : list bytes }.
Definition good_interim (n : interim) : Prop :=
  interim_head (in_head n) /\ concat (in_segments n) = head_text (in_head n) /\ ~ In [] (in_segments n) /\ line_first (in_head n) (in_segments n).
Definition interim_ops (ns : list interim) : list op := concat (map (fun n => resps (in_segments n)) ns).
(** What the callbacks are told of them. *)
Definition interim_event (i : N) (n : interim) (es : list event) : Prop :=
  exists ds, concat ds = block_text (rp_lines (in_head n)) ++ [13; 10] /\
    es = mk_ev HResponseLine i PlNone :: map (fun d => mk_ev HResponseHeaderData i (PlData d)) ds.
Inductive interim_events (i : N) : list interim -> list event -> Prop :=
| ie_nil : interim_events i [] []
| ie_cons n ns es es' : interim_event i n es -> interim_events i ns es' -> interim_events i (n :: ns) (es ++ es').

(** * Conversations in which the server tells the client to go on *)
(** A round whose first response comes after interim ones. *)
Record held := mk_held { hd_round : round; hd_interims : list interim }.
Definition good_held (h : held) : Prop :=
  good_round (hd_round h) /\ Forall good_interim (hd_interims h) /\
  (hd_interims h <> [] -> exists r rs, rd_answers (hd_round h) = r :: rs /\ line_first r (rd_down (hd_round h))).
Definition held_ops (h : held) : list op := reqs (rd_up (hd_round h)) ++ interim_ops (hd_interims h) ++ resps (rd_down (hd_round h)).
Definition held_talk (hs : list held) : list op := OpOpen :: concat (map held_ops hs).
(** What the callbacks are told of the final responses is what they are told of them without the interim ones; those are told of after
    the start of the first final one. *)
Definition held_start (i : N) (ns : list interim) : list event := match ns with [] => [] | _ => [mk_ev HResponseStart i PlNone] end.
Inductive held_events (cfg : config) : N -> list held -> list event -> Prop :=
| hv_nil i : held_events cfg i [] []
| hv_cons i h hs es1 ies es2 es3 : stream_events cfg i (rd_asked (hd_round h)) es1 -> interim_events i (hd_interims h) ies ->
    reply_events i (rd_answers (hd_round h)) (held_start i (hd_interims h) ++ es2) ->
    held_events cfg (i + N.of_nat (length (rd_exchanges (hd_round h)))) hs es3 ->
    held_events cfg i (h :: hs) (es1 ++ held_start i (hd_interims h) ++ ies ++ es2 ++ es3).
Definition held_fits (e : env) (hs : list held) : Prop :=
  talk_fits e (map hd_round hs) /\ Forall (fun h => Forall (fun n => blen (head_text (in_head n)) <= c_field_limit (e_cfg e)) (hd_interims h)) hs.
