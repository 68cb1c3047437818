(** Property C84 of properties.jsonl: HTTP/0.9. The exchange: SpecOld.v. *)
From Coq Require Import List Lia Bool.
From Verif Require Import Base Spec SpecTx SpecMsg SpecResp SpecConnect SpecOld ModelState ModelTx ModelConn SpecConn ProofsBase ProofsMsg ProofsRMsg ProofsTalk ProofsConnect4 ProofsOld PropertiesConn PropertiesMsg PropertiesResp PropertiesConnect.

(** * C84 *)
(** After any conversation, a request line without a protocol, in any segmentation, with nothing after it in its last segment, is a
    complete request. Whatever the client sends after it is not looked at; everything the server sends is the body of the response,
    each segment one piece of it. Every call asks for more. *)
Theorem C84_simple_request : forall e before q later, accepting e -> Forall good_round before -> good_simple q -> mixed later ->
  simple_fits e before q later ->
  exists s t es1 es2,
    history e (conversation before ++ simple_ops q later) = (ROk (all_calls before ++ more (simple_ops q later)), s) /\
    events s = es1 ++ es2 ++ raw_events (N.of_nat (length (exchanges before))) (replies later) /\
    conversation_events (e_cfg e) 0 before es1 /\ simple_events (e_cfg e) (N.of_nat (length (exchanges before))) q es2 /\
    (forall k m r, nth_error (exchanges before) k = Some (m, r) ->
      if c_auto_destroy (e_cfg e) then tx_get (0 + N.of_nat k) (s_txs s) = None
      else exists t, tx_get (0 + N.of_nat k) (s_txs s) = Some t /\ asked m t /\ answered r t) /\
    tx_get (N.of_nat (length (exchanges before))) (s_txs s) = Some t /\ simply_asked q t /\
    simply_answered (replies later) (raw_progress (replies later)) t.
Proof. exact simple_parsed. Qed.
Print Assumptions C84_simple_request.
(** Closing the connection completes the response and the transaction, if anything of the response arrived. *)
Theorem C84_simple_end : forall e before q later, accepting e -> Forall good_round before -> good_simple q -> mixed later ->
  simple_fits e before q later -> replies later <> [] ->
  exists s es1 es2,
    history e (conversation before ++ simple_ops q later ++ [OpClose]) = (ROk (all_calls before ++ more (simple_ops q later) ++ [None]), s) /\
    events s = es1 ++ es2 ++ raw_events (N.of_nat (length (exchanges before))) (replies later) ++
      [mk_ev HResponseComplete (N.of_nat (length (exchanges before))) PlNone; mk_ev HTransactionComplete (N.of_nat (length (exchanges before))) PlNone] /\
    conversation_events (e_cfg e) 0 before es1 /\ simple_events (e_cfg e) (N.of_nat (length (exchanges before))) q es2 /\
    (forall k m r, nth_error (exchanges before) k = Some (m, r) ->
      if c_auto_destroy (e_cfg e) then tx_get (0 + N.of_nat k) (s_txs s) = None
      else exists t, tx_get (0 + N.of_nat k) (s_txs s) = Some t /\ asked m t /\ answered r t) /\
    (if c_auto_destroy (e_cfg e) then tx_get (N.of_nat (length (exchanges before))) (s_txs s) = None
     else exists t, tx_get (N.of_nat (length (exchanges before))) (s_txs s) = Some t /\ simply_asked q t /\ simply_answered (replies later) PComplete t).
Proof. exact simple_closed. Qed.
Print Assumptions C84_simple_end.

(** The conversation of C56, then such a request with a query, a complete request of HTTP/1.1 that is not looked at, and a response
    that looks like one of HTTP/1.1. *)
Definition sq : simple := mk_simple (s2b "GET") (s2b "/a?b=c") [13; 10] [s2b "GE"; s2b "T /a?b=c" ++ [13]; [10]].
Definition sq_later : list (side * bytes) := [(SResp, s2b "HTTP/1.0 200 OK"); (SReq, texts [msg1]); (SResp, [13; 10]); (SReq, [10])].
Lemma sq_good : good_simple sq.
Proof. split; [vm_compute; tauto|]. split; [discriminate|]. split; [discriminate|]. split; [repeat constructor; vm_compute; discriminate|]. split; [now right|]. split; [reflexivity|]. vm_compute. intuition discriminate. Qed.
Example C84_ex : accepting ok_env /\ accepting destroying /\ Forall good_round ex_rounds /\ good_simple sq /\ mixed sq_later /\ replies sq_later <> [] /\
  simple_fits ok_env ex_rounds sq sq_later /\ simple_fits destroying ex_rounds sq sq_later /\ (length (exchanges ex_rounds) > 2)%nat.
Proof.
  split; [exact ex_accepting|]. split; [exact destroying_accepts|]. split; [exact ex_rounds_good|]. split; [exact sq_good|]. split; [repeat constructor; vm_compute; discriminate|]. split; [discriminate|].
  split; [split; [apply fitsb_sound; vm_compute; reflexivity|vm_compute; repeat split; discriminate]|]. split; [split; [apply fitsb_sound; vm_compute; reflexivity|vm_compute; repeat split; discriminate]|]. vm_compute. lia.
Qed.

(** * It depends on the segments *)
Definition style_report (cs : list bytes) := let '(rc, s) := history ok_env (OpOpen :: map (fun c => OpReq (pd_slice c)) cs) in
  (rc, option_map (fun t => (x_is09 t, t_prog (x_req t), map hd_value (t_headers (x_req t)))) (tx_get 0 (s_txs s))).
Definition bare_line : bytes := s2b "GET /" ++ [13; 10].
Definition host_block : bytes := s2b "Host: a" ++ [13; 10; 13; 10].
(** The same bytes in one segment are a request of HTTP/1.x with a Host line, in two they are one of HTTP/0.9 without any. White space
    after the line in its segment makes the same difference if it is more than 16 bytes. *)
Theorem C84_segments_refuted :
  style_report [bare_line ++ host_block] = (ROk [None; Some SsData], Some (false, PComplete, [s2b "a"])) /\
  style_report [bare_line; host_block] = (ROk [None; Some SsData; Some SsData], Some (true, PComplete, [])) /\
  style_report [bare_line ++ repeat 32 16; host_block] = (ROk [None; Some SsData; Some SsData], Some (true, PComplete, [])) /\
  style_report [bare_line ++ repeat 32 17; host_block] = (ROk [None; Some SsData; Some SsData], Some (false, PComplete, [s2b "a"])).
Proof. split; [|split; [|split]]; vm_compute; reflexivity. Qed.
Print Assumptions C84_segments_refuted.
