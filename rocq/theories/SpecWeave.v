(** Vocabulary of the property statements about interleaved conversations. *)
From Verif Require Import Base Spec SpecTx ModelState ModelTx ModelConn SpecMsg SpecResp.

(** A schedule: the segments of both directions in the order in which they are handed to the parser. *)
Definition schedule := list (side * bytes).
Definition ups (l : schedule) : list bytes := flat_map (fun x => match fst x with SReq => [snd x] | SResp => [] end) l.
Definition downs (l : schedule) : list bytes := flat_map (fun x => match fst x with SReq => [] | SResp => [snd x] end) l.
Definition segment_op (x : side * bytes) : op := match fst x with SReq => OpReq (pd_slice (snd x)) | SResp => OpResp (pd_slice (snd x)) end.
Definition scheduled (l : schedule) : list op := OpOpen :: map segment_op l.
Definition all_more (l : schedule) : list (option sstate) := None :: map (fun _ => Some SsData) l.

(** The first [n] requests have arrived with the bytes [B]: all of them are there, and nothing of a request line that is not
    there to its end follows the last one. [settled] says the same of responses. *)
Definition arrived (ms : list message) (n : nat) (B : bytes) : Prop :=
  (n <= length ms)%nat /\
  (B = texts (firstn n ms) \/
   exists m, nth_error ms n = Some m /\ (length (texts (firstn n ms)) + length (request_line_text (m_req m)) <= length B)%nat).
Definition settled (rs : list response) (n : nat) (B : bytes) : Prop :=
  (n <= length rs)%nat /\
  (B = rtexts (firstn n rs) \/
   exists r, nth_error rs n = Some r /\ (length (rtexts (firstn n rs)) + length (status_line_text r) <= length B)%nat).
(** No byte of a response comes before the request has arrived. *)
Definition causal (xs : list (message * response)) (l : schedule) : Prop :=
  forall a c b, l = a ++ (SResp, c) :: b -> exists n, arrived (map fst xs) n (concat (ups a)) /\
    (length (concat (downs a) ++ c) <= length (rtexts (firstn n (map snd xs))))%nat.
Definition good_schedule (xs : list (message * response)) (l : schedule) : Prop :=
  Forall (fun x => good_message (fst x) /\ good_response (fst x) (snd x)) xs /\
  concat (ups l) = texts (map fst xs) /\ clean (map fst xs) (ups l) [] /\
  concat (downs l) = rtexts (map snd xs) /\ reply_clean (map snd xs) (downs l) [] /\ apart (map snd xs) (downs l) [] /\
  (forall x, In x l -> snd x <> []) /\ causal xs l.
(** The configured limits allow the exchanges. Transactions that are freed when they are complete do not count: at no segment are
    more than [c_max_tx] requests begun whose responses have not arrived. *)
Definition weave_fits (e : env) (xs : list (message * response)) (l : schedule) : Prop :=
  Forall (fun x => blen (request_text (m_req (fst x))) <= c_field_limit (e_cfg e) /\
                   blen (block_text (trailer_of (m_content (fst x)))) + 2 <= c_field_limit (e_cfg e) /\
                   blen (head_text (snd x)) <= c_field_limit (e_cfg e) /\
                   blen (block_text (trailer_of (rp_content (snd x)))) + 2 <= c_field_limit (e_cfg e)) xs /\
  N.of_nat (length xs) < 2 ^ 64 /\
  (if c_auto_destroy (e_cfg e)
   then forall a c b, l = a ++ (SReq, c) :: b -> exists n k, settled (map snd xs) n (concat (downs a)) /\
          (length (concat (ups a) ++ c) <= length (texts (firstn (n + k) (map fst xs))))%nat /\ N.of_nat k <= c_max_tx (e_cfg e)
   else N.of_nat (length xs) <= c_max_tx (e_cfg e)).

(** The events of requests; the end of a transaction counts as one of the response. *)
Definition of_request (ev : event) : bool :=
  match ev_hook ev with
  | HRequestStart | HRequestLine | HRequestUriNormalize | HRequestHeaderData | HRequestHeaders | HRequestBodyTx | HRequestBody
  | HRequestTrailerData | HRequestTrailer | HRequestComplete | HParam => true
  | _ => false
  end.
Definition of_response (ev : event) : bool := negb (of_request ev).
(** Nothing is said about a response before the request is complete. *)
Definition answers_follow (es : list event) : Prop :=
  forall a ev b, es = a ++ ev :: b -> of_response ev = true -> In (mk_ev HRequestComplete (ev_tx ev) PlNone) a.
