(** Property C85 of properties.jsonl: lost bytes in the body of a request. The parts of a body and what is told of them: SpecLoss.v. *)
From Coq Require Import List Lia Bool.
From Verif Require Import Base Spec SpecTx SpecMsg SpecResp SpecConnect SpecLoss ModelUtil ModelState ModelTx ModelConn SpecConn ProofsBase ProofsMsg ProofsRMsg ProofsTalk ProofsConnect4 ProofsLoss PropertiesConn PropertiesMsg PropertiesResp PropertiesConnect.

(** * C85 *)
(** After any conversation, a request with a Content-Length arrives up to some place in its body, in any segmentation, and the rest of
    its body comes in any parts, of which some are missing. The body callbacks hear of every part that arrives its bytes and of every
    missing part its size; the missing bytes are counted as sent and not as received; the transaction says that bytes are missing; and
    requests that follow are read as if nothing had been lost. A gap that ends the body, or is said to go beyond it, completes the
    request as well, although the call returns "closed". *)
Theorem C85_lost_request_bytes : forall e before q ms cs, accepting e -> Forall good_round before -> good_lossy_request q -> good_requests ms cs ->
  lossy_fits e before q ms ->
  exists s t es1 es2 es3,
    history e (conversation before ++ lossy_ops q cs) = (ROk (all_calls before ++ lossy_calls q cs), s) /\
    events s = es1 ++ es2 ++ es3 /\
    conversation_events (e_cfg e) 0 before es1 /\ lossy_events (e_cfg e) (N.of_nat (length (exchanges before))) q es2 /\
    stream_events (e_cfg e) (N.of_nat (length (exchanges before)) + 1) ms es3 /\
    (forall k m r, nth_error (exchanges before) k = Some (m, r) ->
      if c_auto_destroy (e_cfg e) then tx_get (0 + N.of_nat k) (s_txs s) = None
      else exists t, tx_get (0 + N.of_nat k) (s_txs s) = Some t /\ asked m t /\ answered r t) /\
    tx_get (N.of_nat (length (exchanges before))) (s_txs s) = Some t /\ lossily_asked q t /\
    (forall k m, nth_error ms k = Some m ->
      exists t, tx_get (N.of_nat (length (exchanges before)) + 1 + N.of_nat k) (s_txs s) = Some t /\ holds m t).
Proof. exact lossy_parsed. Qed.
Print Assumptions C85_lost_request_bytes.

(** The second message of C51 with a body of 20 bytes: 3 arrive with the head, 4 are lost, 6 arrive, 2 are lost; of the last 5 either all
    arrive, or none and the gap is said to be of 90 bytes. *)
Definition long_msg : message := mk_message (mk_request (s2b "POST") (s2b "/b?k=v") [hl "Host" "h"; hl "Content-Length" "20"; hl "x-a" "2"]) (Plain (s2b "0123456789abcdefghij")).
Definition long_up : list bytes := [firstn 40 (message_text long_msg); firstn (length (request_text (m_req long_msg)) - 37) (skipn 40 (message_text long_msg))].
Definition loss1 : lossy_request := mk_lossy_request long_msg long_up (s2b "012") (s2b "3456789abcdefghij")
  [Lost 4; Arrived (s2b "789abc"); Lost 2; Arrived (s2b "fghij")] [PlGap 4; PlData (s2b "789abc"); PlGap 2; PlData (s2b "fghij")].
Definition loss2 : lossy_request := mk_lossy_request long_msg long_up (s2b "012") (s2b "3456789abcdefghij")
  [Lost 4; Arrived (s2b "789abc"); Lost 2; Lost 90] [PlGap 4; PlData (s2b "789abc"); PlGap 2; PlGap 5].
Lemma loss_parts last d : lossy (s2b "fghij") [last] [d] ->
  lossy (s2b "3456789abcdefghij") [Lost 4; Arrived (s2b "789abc"); Lost 2; last] [PlGap 4; PlData (s2b "789abc"); PlGap 2; d].
Proof.
  intro H. change (lossy (s2b "3456" ++ s2b "789abc" ++ s2b "de" ++ s2b "fghij") [Lost (blen (s2b "3456")); Arrived (s2b "789abc"); Lost (blen (s2b "de")); last]
    [PlGap (blen (s2b "3456")); PlData (s2b "789abc"); PlGap (blen (s2b "de")); d]).
  apply ly_lost; [discriminate|]. apply ly_arrived; [discriminate|]. apply ly_lost; [discriminate|exact H].
Qed.
Lemma loss_good parts told : lossy (s2b "3456789abcdefghij") parts told -> good_lossy_request (mk_lossy_request long_msg long_up (s2b "012") (s2b "3456789abcdefghij") parts told).
Proof.
  intro H. split; [assert (G : Forall good_message [long_msg]) by (apply messagesb_sound; vm_compute; reflexivity); now inversion_clear G|]. split; [reflexivity|]. split; [vm_compute; reflexivity|].
  split; [vm_compute; intuition discriminate|]. split; [apply cleanb_sound; vm_compute; reflexivity|exact H].
Qed.
Example C85_ex : accepting ok_env /\ accepting destroying /\ Forall good_round ex_rounds /\ good_lossy_request loss1 /\ good_lossy_request loss2 /\
  good_requests ex_msgs (ex_cut 19) /\ lossy_fits ok_env ex_rounds loss1 ex_msgs /\ lossy_fits destroying ex_rounds loss2 ex_msgs /\ (length (exchanges ex_rounds) > 2)%nat.
Proof.
  split; [exact ex_accepting|]. split; [exact destroying_accepts|]. split; [exact ex_rounds_good|].
  split; [apply loss_good, loss_parts, ly_end; discriminate|]. split; [apply loss_good, loss_parts, (ly_cut (s2b "fghij") 90); [discriminate|vm_compute; discriminate]|].
  split; [split; [exact ex_good|split; [vm_compute; reflexivity|split; [vm_compute; intuition discriminate|apply cleanb_sound; vm_compute; reflexivity]]]|].
  split; [split; [apply fitsb_sound; vm_compute; reflexivity|split; [repeat constructor; vm_compute; discriminate|vm_compute; repeat split; discriminate]]|].
  split; [split; [apply fitsb_sound; vm_compute; reflexivity|split; [repeat constructor; vm_compute; discriminate|vm_compute; repeat split; discriminate]]|]. vm_compute. lia.
Qed.

(** * Gaps elsewhere *)
Definition gap_report (cs : list pdata) := let '(rc, s) := history ok_env (OpOpen :: map OpReq cs) in
  (rc, option_map (fun t => (t_prog (x_req t), x_method t)) (tx_get 0 (s_txs s))).
(** Only the body of a known length has a place for a gap. As the first thing of a connection it makes an error of everything that
    follows; in a header block, or in a chunk, it is refused and what arrives next is joined to what came before it. *)
Theorem C85_gaps_elsewhere_refuted :
  gap_report [pd_gapped 7; pd_slice (texts [msg1])] = (ROk [None; Some SsError; Some SsError], Some (PGap, None)) /\
  gap_report [pd_slice (firstn 1 (texts [msg1])); pd_gapped 2; pd_slice (skipn 1 (texts [msg1]))] = (ROk [None; Some SsData; Some SsClosed; Some SsData], Some (PComplete, Some (s2b "GET"))) /\
  gap_report [pd_slice (firstn 100 (texts [msg4])); pd_gapped 2; pd_slice (skipn 100 (texts [msg4]))] = (ROk [None; Some SsData; Some SsClosed; Some SsData], Some (PComplete, Some (s2b "POST"))).
Proof. vm_compute. repeat split. Qed.
Print Assumptions C85_gaps_elsewhere_refuted.
