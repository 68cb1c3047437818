(** Vocabulary of the property statements about well-formed messages: their text and the callbacks they lead to. *)
From Verif Require Import Base Spec SpecTx ModelParsers ModelUrl ModelUri ModelState ModelTx ModelConn.

(** * Requests *)
Record request := mk_request { rq_method : bytes; rq_target : bytes; rq_lines : list hline }.
Definition request_line_text (r : request) : bytes := rq_method r ++ [32] ++ rq_target r ++ s2b " HTTP/1.1" ++ [13; 10].
Definition request_text (r : request) : bytes := request_line_text r ++ block_text (rq_lines r) ++ [13; 10].
(** A method libhtp knows, other than CONNECT; a target of printable characters; well-formed header lines. *)
Definition good_request (r : request) : Prop :=
  In (rq_method r) known_methods /\ rq_method r <> s2b "CONNECT" /\
  rq_target r <> [] /\ Forall (fun c => 33 <= c <= 126) (rq_target r) /\ Forall good_hline (rq_lines r).

(** * Bodies *)
(** A chunk: its size in hex, what follows the size on its line, and its data. *)
Record chunk := mk_chunk { ck_size : bytes; ck_ext : bytes; ck_data : bytes }.
Definition size_line (c : chunk) : bytes := ck_size c ++ ck_ext c ++ [13; 10].
Definition data_text (c : chunk) : bytes := match ck_data c with [] => [] | d => d ++ [13; 10] end.
Definition chunk_text (c : chunk) : bytes := size_line c ++ data_text c.
Definition good_chunk (c : chunk) : Prop :=
  ck_size c <> [] /\ Forall hexdigit (ck_size c) /\ hex_value (ck_size c) = blen (ck_data c) /\ blen (ck_data c) <= 2 ^ 31 - 1 /\
  (ck_ext c = [] \/ exists x, ck_ext c = 59 :: x /\ ~ In 10 x).
(** The bytes themselves, or chunks, the last one (without data) and trailer lines. *)
Inductive content := Plain (b : bytes) | Chunked (cs : list chunk) (last : chunk) (trailer : list hline).
Definition data_of (c : content) : bytes := match c with Plain b => b | Chunked cs _ _ => concat (map ck_data cs) end.
Definition trailer_of (c : content) : list hline := match c with Plain _ => [] | Chunked _ _ tr => tr end.
(** The coded data, and the whole text with the trailer. *)
Definition chunks_text (cs : list chunk) : bytes := concat (map chunk_text cs).
Definition coded_text (c : content) : bytes := match c with Plain b => b | Chunked cs last _ => chunks_text (cs ++ [last]) end.
Definition content_text (c : content) : bytes := coded_text c ++ match c with Plain _ => [] | Chunked _ _ tr => block_text tr ++ [13; 10] end.
Definition good_content (c : content) : Prop :=
  match c with
  | Plain _ => True
  | Chunked cs last tr => Forall good_chunk (cs ++ [last]) /\ Forall (fun c => ck_data c <> []) cs /\ ck_data last = [] /\ Forall good_hline tr
  end.

(** A request and its body. *)
Record message := mk_message { m_req : request; m_content : content }.
Definition m_body (m : message) : bytes := data_of (m_content m).
Definition message_text (m : message) : bytes := request_text (m_req m) ++ content_text (m_content m).
Definition texts (ms : list message) : bytes := concat (map message_text ms).

(** Header lines by name; case is ignored. *)
Definition named (k : string) (l : hline) : Prop := name_eq (hl_name l) (s2b k).
Definition no_line (k : string) (ls : list hline) : Prop := Forall (fun l => ~ named k l) ls.
Definition first_line (k : string) (ls : list hline) (l : hline) : Prop := first_such (named k) ls l.
(** A well-formed message: the body is what Content-Length says (none without it), or chunked when Transfer-Encoding says so
    (whatever Content-Length says); no content coding; the media type is not empty. *)
Definition sized (ls : list hline) (body : bytes) : Prop :=
  (no_line "content-length" ls /\ body = []) \/
  (exists l, first_line "content-length" ls l /\ hl_value l <> [] /\ Forall digit (hl_value l) /\ dec_value (hl_value l) = blen body).
Definition framed (ls : list hline) (c : content) : Prop :=
  match c with
  | Plain body => sized ls body /\ no_line "transfer-encoding" ls
  | Chunked _ _ _ => exists l, first_line "transfer-encoding" ls l /\ name_eq (hl_value l) (s2b "chunked")
  end.
Definition typed (ls : list hline) : Prop :=
  forall l, first_line "content-type" ls l -> exists x v, hl_value l = x :: v /\ x <> 59 /\ x <> 44.
Definition good_message (m : message) : Prop :=
  good_request (m_req m) /\ blen (coded_text (m_content m)) < 2 ^ 64 /\ good_content (m_content m) /\
  framed (rq_lines (m_req m)) (m_content m) /\ typed (rq_lines (m_req m)) /\ no_line "content-encoding" (rq_lines (m_req m)).

(** * Targets *)
(** A target in origin form (path, query, fragment) or absolute form, and what is parsed from it. *)
Definition origin_form (target : bytes) (c : uri_parts) : Prop := good_tail c /\ (exists p, up_path c = Some p) /\ target = tail_text c.
Definition absolute_form (target : bytes) (c : uri_parts) : Prop := good_parts c /\ target = uri_text c.
Definition origin_uri (c : uri_parts) : uri := {|
  u_scheme := None; u_username := None; u_password := None; u_hostname := None; u_port := None; u_port_number := None;
  u_path := up_path c; u_query := up_query c; u_fragment := up_frag c |}.
Definition absolute_uri (c : uri_parts) : uri := {|
  u_scheme := Some (up_scheme c); u_username := option_map fst (up_cred c); u_password := match up_cred c with Some (_, p) => p | None => None end;
  u_hostname := Some (up_host c); u_port := up_portt c; u_port_number := None;
  u_path := up_path c; u_query := up_query c; u_fragment := up_frag c |}.
Definition located (target : bytes) (u : uri) : Prop :=
  (forall c, origin_form target c -> u = origin_uri c) /\ (forall c, absolute_form target c -> u = absolute_uri c).
(** The name-value pairs of a query: one for every non-empty piece between ampersands, split at the first equals sign, with both parts
    unescaped; a query without such a piece has one pair of empty texts. *)
Definition unescaped (cfg : config) (s s' : bytes) : Prop := exists f st, decode_uri (c_dcfg cfg) s = Some (POk [] (s', f, st)).
Definition query_pairs (cfg : config) (q : bytes) (ps : list (bytes * bytes)) : Prop :=
  forall segs, pieces 38 q segs ->
  match filter nonempty segs with [] => ps = [([], [])] | wanted => Forall2 (param_for (unescaped cfg)) wanted ps end.
(** The pairs handed to the parameter callback: those of the query, if they are asked for. *)
Definition reported (cfg : config) (target : bytes) (ps : list (bytes * bytes)) : Prop :=
  if c_parse_urlenc cfg && c_param_proc cfg then
    forall c, origin_form target c \/ absolute_form target c -> match up_query c with Some q => query_pairs cfg q ps | None => ps = [] end
  else ps = [].
(** A host and maybe a port, as in the Host header. *)
Definition host_text (v h : bytes) (p : option N) : Prop :=
  (plain_host h \/ literal_host h) /\
  ((v = h /\ p = None) \/ exists d, v = h ++ s2b ":" ++ d /\ d <> [] /\ Forall digit d /\ 1 <= dec_value d <= 65535 /\ p = Some (dec_value d)).
(** The only line of that name. *)
Definition only_line (k : string) (ls : list hline) (l : hline) : Prop :=
  exists before after, ls = before ++ l :: after /\ named k l /\ no_line k before /\ no_line k after.

(** * What the callbacks are told about request [i], in order of time *)
(** One piece of the body: the transaction's own callback, then the configured one. *)
Definition body_piece (i : N) (d : payload) : list event := [mk_ev HRequestBodyTx i d; mk_ev HRequestBody i d].
(** The end of the body is signalled with no data: once for a chunked body; otherwise not at all for a request without a length,
    once for an empty body and twice for a non-empty one. *)
Definition end_signals (ls : list hline) (c : content) (n : nat) : Prop :=
  match c with
  | Chunked _ _ _ => n = 1%nat
  | Plain body => (no_line "content-length" ls /\ n = 0%nat) \/
                  (~ no_line "content-length" ls /\ n = match body with [] => 1 | _ => 2 end)%nat
  end.
(** The trailer arrives in pieces, which are handed over raw before it is reported. *)
Definition trailer_events (i : N) (c : content) (es : list event) : Prop :=
  match c with
  | Plain _ => es = []
  | Chunked _ _ tr => exists hs, concat hs = block_text tr ++ [13; 10] /\
      es = map (fun h => mk_ev HRequestTrailerData i (PlData h)) hs ++ [mk_ev HRequestTrailer i PlNone]
  end.
(** The parameters of the query come before the request line is reported; the header block arrives in pieces [hs] and the body in
    non-empty pieces [bs]. *)
Definition message_events (cfg : config) (i : N) (m : message) (es : list event) : Prop :=
  exists ps hs bs ts n, reported cfg (rq_target (m_req m)) ps /\ concat hs = block_text (rq_lines (m_req m)) ++ [13; 10] /\ concat bs = m_body m /\ ~ In [] bs /\
    trailer_events i (m_content m) ts /\ end_signals (rq_lines (m_req m)) (m_content m) n /\
    es = [mk_ev HRequestStart i PlNone] ++ map (fun nv => mk_ev HParam i (PlParam (fst nv) (snd nv))) ps ++
         [mk_ev HRequestUriNormalize i PlNone; mk_ev HRequestLine i PlNone] ++
         map (fun h => mk_ev HRequestHeaderData i (PlData h)) hs ++ [mk_ev HRequestHeaders i PlNone] ++
         flat_map (fun b => body_piece i (PlData b)) bs ++ ts ++ concat (repeat (body_piece i PlNone) n) ++ [mk_ev HRequestComplete i PlNone].
Inductive stream_events (cfg : config) : N -> list message -> list event -> Prop :=
| se_nil i : stream_events cfg i [] []
| se_cons i m ms es es' : message_events cfg i m es -> stream_events cfg (i + 1) ms es' -> stream_events cfg i (m :: ms) (es ++ es').
Arguments se_nil {cfg}. Arguments se_cons {cfg}.

(** * What the transaction of a complete message holds *)
Record asked (m : message) (t : tx) : Prop := {
  ho_method : x_method t = Some (rq_method (m_req m));
  ho_number : x_methodn t = MKnown (rq_method (m_req m));
  ho_target : x_uri t = Some (rq_target (m_req m));
  ho_uri : exists u, x_raw t = Some u /\ located (rq_target (m_req m)) u;
  ho_host : forall c l h p, origin_form (rq_target (m_req m)) c -> only_line "host" (rq_lines (m_req m)) l -> host_text (hl_value l) h p ->
    x_host t = Some (lowers h) /\ x_port t = p;
  ho_protocol : t_proton (x_req t) = ProtoV1_1;
  ho_headers : map view (t_headers (x_req t)) = merged_table (map kv_of (rq_lines (m_req m) ++ trailer_of (m_content m)));
  ho_entity : t_elen (x_req t) = blen (m_body m);
  ho_message : t_mlen (x_req t) = blen (coded_text (m_content m));
  ho_progress : t_prog (x_req t) = PComplete;
  ho_style : x_is09 t = false }.
(** What a transaction holds of the response; in [holds] nothing is known of it yet. *)
Definition reply_part (t : tx) := (x_resp t, x_status t, x_statusn t, x_msg t, x_seen100 t, x_h2 t).
Definition holds (m : message) (t : tx) : Prop := asked m t /\ reply_part t = reply_part tx_new.

(** * Segmentations *)
(** A new connection that receives requests in the segments [cs]. *)
Definition requests_in (cs : list bytes) : list op := OpOpen :: map (fun c => OpReq (pd_slice c)) cs.
(** The results of those calls: each asks for more. *)
Definition all_data (cs : list bytes) : list (option sstate) := None :: map (fun _ => Some SsData) cs.
(** The places in the text of a message, by what follows them in it, where the stream must not be cut: between the CR and the LF
    that end the header block, the data of a chunk or the trailer, and inside the size line of a chunk. *)
Inductive no_cut : content -> bytes -> Prop :=
| nc_head c : no_cut c ([10] ++ content_text c)
| nc_size cs last tr c1 c c2 x y : cs ++ [last] = c1 ++ c :: c2 -> size_line c = x ++ y -> x <> [] -> y <> [] ->
    no_cut (Chunked cs last tr) (y ++ data_text c ++ chunks_text c2 ++ block_text tr ++ [13; 10])
| nc_data c1 c c2 last tr : no_cut (Chunked (c1 ++ c :: c2) last tr) ([10] ++ chunks_text (c2 ++ [last]) ++ block_text tr ++ [13; 10])
| nc_trailer cs last tr : no_cut (Chunked cs last tr) [10].
(** No cut falls into such a place; [rest] did not arrive yet. *)
Definition clean (ms : list message) (cs : list bytes) (rest : bytes) : Prop :=
  forall a b before m after y, cs = a ++ b -> ms = before ++ m :: after -> no_cut (m_content m) y -> concat b ++ rest <> y ++ texts after.
(** The configured limits allow [ms]. *)
Definition fits (e : env) (ms : list message) : Prop :=
  Forall (fun m => blen (request_text (m_req m)) <= c_field_limit (e_cfg e) /\
                   blen (block_text (trailer_of (m_content m))) + 2 <= c_field_limit (e_cfg e)) ms /\
  N.of_nat (length ms) <= c_max_tx (e_cfg e) /\ N.of_nat (length ms) < 2 ^ 64.
(** The body bytes of request [i] handed to the configured callbacks, in order. *)
Definition body_of (i : N) (es : list event) : bytes :=
  flat_map (fun ev => match ev_hook ev, ev_data ev with HRequestBody, PlData b => if ev_tx ev =? i then b else [] | _, _ => [] end) es.
(** The body bytes among the first [n] bytes of a content. *)
Fixpoint chunks_before (cs : list chunk) (n : nat) : bytes :=
  match cs with
  | [] => []
  | c :: r => firstn (n - length (size_line c)) (ck_data c) ++ chunks_before r (n - length (chunk_text c))
  end.
Definition body_before (c : content) (n : nat) : bytes := match c with Plain b => firstn n b | Chunked cs _ _ => chunks_before cs n end.
