(** Vocabulary of the property statements about CONNECT: a tunnel is asked for and granted. *)
From Verif Require Import Base Spec SpecTx ModelUri ModelState ModelTx ModelConn SpecMsg SpecResp.

(** A request for a tunnel: any visible target, any header lines that tell of no body. *)
Definition connect_request (r : request) : Prop :=
  rq_method r = s2b "CONNECT" /\ rq_target r <> [] /\ Forall (fun c => 33 <= c <= 126) (rq_target r) /\
  Forall good_hline (rq_lines r) /\ typed (rq_lines r) /\
  no_line "content-length" (rq_lines r) /\ no_line "transfer-encoding" (rq_lines r) /\ no_line "content-encoding" (rq_lines r).
(** A response that grants it (200-299): a head only, whatever its lines say about a body. *)
Definition grant (r : response) : Prop :=
  length (rp_code r) = 3%nat /\ Forall digit (rp_code r) /\ 200 <= rp_status r <= 299 /\
  Forall (fun c => c <> 10 /\ c <> 13) (rp_reason r) /\ (forall c x, rp_reason r = c :: x -> is_ascii_ws c = false) /\
  Forall good_hline (rp_lines r) /\ no_line "content-encoding" (rp_lines r) /\ rp_content r = Plain [].
(** Both, in segments: cut anywhere except before the last byte of the request and inside the end of the status line. *)
Record handshake := mk_handshake { hk_request : request; hk_reply : response; hk_up : list bytes; hk_down : list bytes }.
Definition good_handshake (h : handshake) : Prop :=
  connect_request (hk_request h) /\ grant (hk_reply h) /\
  concat (hk_up h) = request_text (hk_request h) /\ ~ In [] (hk_up h) /\ (forall a b, hk_up h = a ++ b -> concat b <> [10]) /\
  concat (hk_down h) = head_text (hk_reply h) /\ ~ In [] (hk_down h) /\
  (forall a b, hk_down h = a ++ b -> concat b <> [10] ++ block_text (rp_lines (hk_reply h)) ++ [13; 10]).
Definition reqs (cs : list bytes) : list op := map (fun c => OpReq (pd_slice c)) cs.
Definition resps (cs : list bytes) : list op := map (fun c => OpResp (pd_slice c)) cs.
Definition handshake_ops (h : handshake) : list op := reqs (hk_up h) ++ resps (hk_down h).
Definition more (l : list op) : list (option sstate) := map (fun _ => Some SsData) l.
(** What the callbacks are told of it, in order of time. *)
Definition handshake_events (i : N) (h : handshake) (es : list event) : Prop :=
  exists hs ds, concat hs = block_text (rq_lines (hk_request h)) ++ [13; 10] /\ concat ds = block_text (rp_lines (hk_reply h)) ++ [13; 10] /\
    es = [mk_ev HRequestStart i PlNone; mk_ev HRequestUriNormalize i PlNone; mk_ev HRequestLine i PlNone] ++
         map (fun b => mk_ev HRequestHeaderData i (PlData b)) hs ++ [mk_ev HRequestHeaders i PlNone] ++
         [mk_ev HResponseStart i PlNone; mk_ev HResponseLine i PlNone] ++
         map (fun b => mk_ev HResponseHeaderData i (PlData b)) ds ++ [mk_ev HResponseHeaders i PlNone; mk_ev HResponseComplete i PlNone].
(** What the transaction holds of the request; [p]: how far it is. *)
Record tunnel_asked (r : request) (p : progress) (t : tx) : Prop := {
  ta_method : x_method t = Some (s2b "CONNECT");
  ta_number : x_methodn t = MKnown (s2b "CONNECT");
  ta_target : x_uri t = Some (rq_target r);
  ta_host : forall h n, host_text (rq_target r) h n -> exists u, x_raw t = Some u /\ u_hostname u = Some (lowers h) /\ u_port_number u = n;
  ta_protocol : t_proton (x_req t) = ProtoV1_1;
  ta_headers : map view (t_headers (x_req t)) = merged_table (map kv_of (rq_lines r));
  ta_entity : t_elen (x_req t) = 0; ta_message : t_mlen (x_req t) = 0;
  ta_progress : t_prog (x_req t) = p }.

(** What happens until the status line of the answer is read, if the client does not wait for it: bytes from both sides. *)
Definition spoken (x : side * bytes) : op := match fst x with SReq => OpReq (pd_slice (snd x)) | SResp => OpResp (pd_slice (snd x)) end.
Definition from_server (l : list (side * bytes)) : list bytes := concat (map (fun x => match fst x with SResp => [snd x] | SReq => [] end) l).
Definition call_gives (x : side * bytes) : option sstate := Some (match fst x with SReq => SsDataOther | SResp => SsData end).

(** * What follows *)
(** The first word of a text. *)
Definition first_word (text w : bytes) : Prop :=
  exists blank rest, text = blank ++ w ++ rest /\ Forall c_space blank /\ Forall (fun c => ~ c_space c) w /\
    (forall c x, rest = c :: x -> c_space c) /\ (w = [] -> rest = []).
(** [line] is what the client sends up to the first line feed or zero byte: it comes with [w], after the segments [quiet]. *)
Definition first_text (quiet : list bytes) (w line : bytes) : Prop :=
  exists a z b, w = a ++ z :: b /\ (z = 10 \/ z = 0) /\ ~ In 10 (concat quiet ++ a) /\ ~ In 0 (concat quiet ++ a) /\ line = concat quiet ++ a ++ [z].
(** Some bytes, from either side. *)
Definition traffic (o : op) : Prop := exists c, c <> [] /\ (o = OpReq (pd_slice c) \/ o = OpResp (pd_slice c)).
(** The configured limits allow the handshake between the two conversations. *)
Definition tunnel_fits (e : env) (before : list round) (h : handshake) (after : list round) : Prop :=
  talk_fits e before /\ talk_fits e after /\
  blen (request_text (hk_request h)) <= c_field_limit (e_cfg e) /\ blen (head_text (hk_reply h)) <= c_field_limit (e_cfg e) /\
  N.of_nat (length (exchanges before)) + 1 + N.of_nat (length (exchanges after)) < 2 ^ 64 /\
  (if c_auto_destroy (e_cfg e) then 1 <= c_max_tx (e_cfg e)
   else N.of_nat (length (exchanges before)) + 1 + N.of_nat (length (exchanges after)) <= c_max_tx (e_cfg e)).
