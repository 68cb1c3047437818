(** Properties C58 and C59 of properties.jsonl: conversations in which requests and responses are interleaved (pipelining). Schedules
    and the conditions on them: SpecWeave.v; messages: SpecMsg.v, SpecResp.v. *)
From Verif Require Import Base Spec SpecTx SpecMsg SpecResp SpecWeave ModelState ModelTx ModelConn SpecConn ProofsWeave ProofsSchedule PropertiesConn PropertiesMsg PropertiesResp.

(** * C58 *)
(** In whatever order the segments of the two directions come in, as long as no response comes before its request: every call asks
    for more, the request callbacks are those of the requests in order, the response callbacks those of the responses in order, none
    of which runs before its request is complete, and transaction [k] pairs request [k] with response [k]; unless complete
    transactions are freed, in which case it is gone. *)
Theorem C58_interleaved_conversation_is_parsed : forall e xs l, accepting e -> good_schedule xs l -> weave_fits e xs l ->
  exists s, history e (scheduled l) = (ROk (all_more l), s) /\
    stream_events (e_cfg e) 0 (map fst xs) (filter of_request (events s)) /\ reply_events 0 (map snd xs) (filter of_response (events s)) /\
    answers_follow (events s) /\
    (forall k m r, nth_error xs k = Some (m, r) ->
      if c_auto_destroy (e_cfg e) then tx_get (N.of_nat k) (s_txs s) = None
      else exists t, tx_get (N.of_nat k) (s_txs s) = Some t /\ asked m t /\ answered r t).
Proof. exact weave_parsed. Qed.
Print Assumptions C58_interleaved_conversation_is_parsed.
(** Five exchanges, the segments given by their direction and length. *)
Definition ex_xs : list (message * response) := [(msg1, rsp1); (msg4, rsp2); (msg2, rsp1); (msg3, rsp4); (msg3, rsp3)].
Fixpoint deal (l : list (side * nat)) (u d : bytes) : schedule :=
  match l with
  | [] => []
  | (SReq, n) :: r => (SReq, firstn n u) :: deal r (skipn n u) d
  | (SResp, n) :: r => (SResp, firstn n d) :: deal r u (skipn n d)
  end.
(** Requests run ahead of the responses; segments of both directions end inside messages of which others are under way. *)
Definition ex_schedule : schedule :=
  deal [(SReq, 102%nat); (SResp, 30%nat); (SReq, 78%nat); (SResp, 60%nat); (SReq, 105%nat); (SResp, 40%nat); (SResp, 130%nat); (SReq, 2%nat); (SResp, 37%nat); (SResp, 27%nat)]
    (texts (map fst ex_xs)) (rtexts (map snd ex_xs)).
(** At most four transactions are kept. *)
Definition ex_four : env := ex_env (set_c_max_tx 4 (set_c_auto_destroy true config_default)) (fun _ _ => SOk).
Lemma ex_schedule_good : good_schedule ex_xs ex_schedule. Proof. apply scheduleb_sound. vm_compute. reflexivity. Qed.
Lemma ex_four_accepts : accepting ex_four. Proof. split; [intros s ev; left; reflexivity|intros; reflexivity]. Qed.
Example C58_ex : good_schedule ex_xs ex_schedule /\ accepting ok_env /\ weave_fits ok_env ex_xs ex_schedule /\ accepting ex_four /\ weave_fits ex_four ex_xs ex_schedule /\
  c_auto_destroy (e_cfg ok_env) = false /\ c_auto_destroy (e_cfg ex_four) = true /\ c_max_tx (e_cfg ex_four) < N.of_nat (length ex_xs) /\
  map fst ex_schedule = [SReq; SResp; SReq; SResp; SReq; SResp; SResp; SReq; SResp; SResp].
Proof.
  split; [exact ex_schedule_good|]. split; [exact ex_accepting|]. split; [apply weave_fitsb_sound; vm_compute; reflexivity|]. split; [exact ex_four_accepts|].
  split; [apply weave_fitsb_sound; vm_compute; reflexivity|]. repeat split; vm_compute; reflexivity.
Qed.

(** * C59 *)
(** In such a conversation every body reaches the callbacks of its own transaction whole, once and in order, without chunk framing. *)
Theorem C59_interleaved_bodies_exact : forall e xs l, accepting e -> good_schedule xs l -> weave_fits e xs l ->
  exists s, history e (scheduled l) = (ROk (all_more l), s) /\
    forall k m r, nth_error xs k = Some (m, r) ->
      body_of (N.of_nat k) (events s) = m_body m /\ reply_body_of (N.of_nat k) (events s) = rp_body r.
Proof. exact weave_bodies_exact. Qed.
Print Assumptions C59_interleaved_bodies_exact.
(** The schedule has no influence on what the transactions hold or on the bodies. *)
Theorem C59_schedule_irrelevant : forall e xs l l', accepting e -> c_auto_destroy (e_cfg e) = false ->
  good_schedule xs l -> weave_fits e xs l -> good_schedule xs l' -> weave_fits e xs l' ->
  exists s s', history e (scheduled l) = (ROk (all_more l), s) /\ history e (scheduled l') = (ROk (all_more l'), s') /\
    forall k m r, nth_error xs k = Some (m, r) -> exists t t', tx_get (N.of_nat k) (s_txs s) = Some t /\ tx_get (N.of_nat k) (s_txs s') = Some t' /\
      asked m t /\ answered r t /\ asked m t' /\ answered r t' /\
      body_of (N.of_nat k) (events s) = body_of (N.of_nat k) (events s') /\
      reply_body_of (N.of_nat k) (events s) = reply_body_of (N.of_nat k) (events s').
Proof. exact weave_alike. Qed.
Print Assumptions C59_schedule_irrelevant.
(** Another schedule: all requests first. *)
Definition ex_ahead : schedule :=
  deal [(SReq, 287%nat); (SResp, 230%nat); (SResp, 67%nat); (SResp, 27%nat)] (texts (map fst ex_xs)) (rtexts (map snd ex_xs)).
Example C59_ex : good_schedule ex_xs ex_ahead /\ weave_fits ok_env ex_xs ex_ahead /\ ex_ahead <> ex_schedule /\
  map (fun x => (m_body (fst x), rp_body (snd x))) ex_xs = [([], s2b "world"); (m_body msg4, s2b "0123456789abc"); (m_body msg2, s2b "world"); ([], s2b "abc"); ([], [])] /\
  m_body msg4 <> [] /\ m_body msg2 <> [].
Proof.
  split; [apply scheduleb_sound; vm_compute; reflexivity|]. split; [apply weave_fitsb_sound; vm_compute; reflexivity|].
  split; [intro E; apply (f_equal (@length _)) in E; discriminate|]. split; [vm_compute; reflexivity|]. split; discriminate.
Qed.

(** * Why the schedules are restricted *)
Definition calls_made (l : schedule) := let s := snd (history ok_env (scheduled l)) in map (fun ev => (ev_hook ev, ev_tx ev)) (events s).
(** When the segment that ends a request also has a part of the next request line, the request is not complete until more comes: its
    response is complete before it. *)
Theorem C58_partial_line_refuted : let m := message_text msg3 in
  exists a b c, calls_made [(SReq, message_text msg1 ++ firstn 5 m); (SResp, response_text rsp1); (SReq, skipn 5 m)] =
    a ++ (HResponseComplete, 0) :: b ++ (HRequestComplete, 0) :: (HTransactionComplete, 0) :: c /\ ~ In (HRequestComplete, 0) a.
Proof.
  exists [(HRequestStart, 0); (HRequestUriNormalize, 0); (HRequestLine, 0); (HRequestHeaderData, 0); (HRequestHeaders, 0); (HResponseStart, 0); (HResponseLine, 0); (HResponseHeaderData, 0); (HResponseHeaders, 0); (HResponseBodyTx, 0); (HResponseBody, 0)], [],
    [(HRequestStart, 1); (HRequestUriNormalize, 1); (HRequestLine, 1); (HRequestHeaderData, 1); (HRequestHeaders, 1); (HRequestComplete, 1)].
  split; [vm_compute; reflexivity|]. cbn. intuition discriminate.
Qed.
Print Assumptions C58_partial_line_refuted.
(** A response that comes before its request is paired with no request, and the request gets another transaction. *)
Theorem C58_response_first_refuted :
  calls_made [(SResp, response_text rsp1); (SReq, message_text msg1)] =
    [(HResponseStart, 0); (HResponseLine, 0); (HResponseHeaderData, 0); (HResponseHeaders, 0); (HResponseBodyTx, 0); (HResponseBody, 0); (HResponseComplete, 0); (HTransactionComplete, 0);
     (HRequestStart, 1); (HRequestUriNormalize, 1); (HRequestLine, 1); (HRequestHeaderData, 1); (HRequestHeaders, 1); (HRequestComplete, 1)].
Proof. vm_compute. reflexivity. Qed.
Print Assumptions C58_response_first_refuted.
