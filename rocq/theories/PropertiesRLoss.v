(** Property C86 of properties.jsonl: lost bytes in the body of a response. The rounds in which bytes are lost and what is told of them:
    SpecRLoss.v. *)
From Coq Require Import List Lia Bool.
From Verif Require Import Base Spec SpecTx SpecMsg SpecResp SpecConnect SpecLoss SpecRLoss ModelUtil ModelState ModelTx ModelConn SpecConn ProofsBase ProofsMsg ProofsRMsg ProofsTalk ProofsConnect4 ProofsLoss ProofsRLoss PropertiesConn PropertiesMsg PropertiesResp PropertiesConnect PropertiesLoss.

(** * C86 *)
(** A conversation has any number of rounds. In any of them the first response may arrive, in any segmentation, only up to some place in
    its body and the rest of its body in any parts, of which some are missing. The body callbacks hear of every part that arrives its
    bytes and of every missing part its size; the missing bytes are counted as sent and not as received; the transaction says that bytes
    are missing; and everything else, the other responses of the round and the rounds that follow included, is as without the loss.
    A gap that ends the body, or is said to go beyond it, completes the response as well, although the call returns "closed". *)
Theorem C86_lost_response_bytes : forall e gs, accepting e -> Forall good_stage gs -> staged_fits e gs ->
  exists s, history e (staged_talk gs) = (ROk (staged_calls gs), s) /\ staged_events (e_cfg e) 0 gs (events s) /\
    (forall k f, nth_error (staged_outcomes gs) k = Some f ->
      if c_auto_destroy (e_cfg e) then tx_get (N.of_nat k) (s_txs s) = None else exists t, tx_get (N.of_nat k) (s_txs s) = Some t /\ f t).
Proof. exact staged_parsed. Qed.
Print Assumptions C86_lost_response_bytes.

(** A response of 20 body bytes to the first of two requests: 3 arrive with the head, 4 are lost, 6 arrive, 2 are lost; of the last 5
    either all arrive, or none and the gap is said to be of 90 bytes. In between and after that the rounds of C56. *)
Definition long_rsp : response := mk_response (s2b "200") (s2b "OK") [hl "Server" "x"; hl "Content-Length" "20"; hl "x-b" "2"] (Plain (s2b "0123456789abcdefghij")).
Definition torn_with (parts : list part) (told : list payload) : torn :=
  mk_torn msg1 long_rsp [(msg4, rsp2); (msg2, rsp1)] (cut_by 40 99 (texts [msg1; msg4; msg2])) [firstn 30 (head_text long_rsp); skipn 30 (head_text long_rsp) ++ s2b "012"]
    (s2b "012") (s2b "3456789abcdefghij") parts told [rtexts [rsp2]; firstn 20 (rtexts [rsp1]); skipn 20 (rtexts [rsp1])].
Definition torn1 : torn := torn_with [Lost 4; Arrived (s2b "789abc"); Lost 2; Arrived (s2b "fghij")] [PlGap 4; PlData (s2b "789abc"); PlGap 2; PlData (s2b "fghij")].
Definition torn2 : torn := torn_with [Lost 4; Arrived (s2b "789abc"); Lost 2; Lost 90] [PlGap 4; PlData (s2b "789abc"); PlGap 2; PlGap 5].
Lemma torn_good parts told : lossy (s2b "3456789abcdefghij") parts told -> good_torn (torn_with parts told).
Proof.
  intro H. set (q := torn_with parts told).
  assert (G : good_round (mk_round (tn_exchanges q) (tn_up q) [rtexts (map snd (tn_exchanges q))])) by (apply (Forall_inv (l := [])), roundsb_sound; vm_compute; reflexivity).
  destruct G as (G1 & G2 & G3 & G4 & _). split; [exact G1|]. split; [exact G2|]. split; [exact G3|]. split; [exact G4|]. split; [reflexivity|]. split; [vm_compute; reflexivity|].
  split; [vm_compute; intuition discriminate|]. split; [apply rcleanb_sound; vm_compute; reflexivity|]. split; [exact H|]. split; [vm_compute; reflexivity|].
  split; [vm_compute; intuition discriminate|]. split; [apply rcleanb_sound; vm_compute; reflexivity|apply apartb_sound; vm_compute; reflexivity].
Qed.
Definition torn_talk : list stage := Torn torn2 :: map Whole ex_rounds ++ [Torn torn1].
Lemma torn_talk_good : Forall good_stage torn_talk.
Proof.
  assert (W : Forall good_stage (map Whole ex_rounds)).
  { pose proof ex_rounds_good as R. rewrite Forall_forall in *. intros g I. apply in_map_iff in I as (rd & <- & I). exact (R rd I). }
  assert (T1 : good_stage (Torn torn1)) by (apply torn_good, loss_parts, ly_end; discriminate).
  assert (T2 : good_stage (Torn torn2)) by (apply torn_good, loss_parts, (ly_cut (s2b "fghij") 90); [discriminate|vm_compute; discriminate]).
  constructor; [exact T2|]. apply Forall_app. split; [exact W|]. constructor; [exact T1|constructor].
Qed.
Definition short_linesb (n : N) (xs : list (message * response)) : bool :=
  forallb (fun x => (blen (request_text (m_req (fst x))) <=? n) && (blen (block_text (trailer_of (m_content (fst x)))) + 2 <=? n) &&
                    (blen (head_text (snd x)) <=? n) && (blen (block_text (trailer_of (rp_content (snd x)))) + 2 <=? n)) xs.
Lemma short_linesb_sound n xs : short_linesb n xs = true -> Forall (fun x => blen (request_text (m_req (fst x))) <= n /\
  blen (block_text (trailer_of (m_content (fst x)))) + 2 <= n /\ blen (head_text (snd x)) <= n /\ blen (block_text (trailer_of (rp_content (snd x)))) + 2 <= n) xs.
Proof. intro H. apply Forall_forall. intros x Hx. pose proof (proj1 (forallb_forall _ _) H x Hx) as B. cbn beta in B. rewrite !andb_true_iff, !N.leb_le in B. tauto. Qed.
Example C86_ex : accepting ok_env /\ accepting destroying /\ Forall good_stage torn_talk /\ staged_fits ok_env torn_talk /\ staged_fits destroying torn_talk /\ length (staged_exchanges torn_talk) = 11%nat.
Proof.
  split; [exact ex_accepting|]. split; [exact destroying_accepts|]. split; [exact torn_talk_good|].
  split; [split; [apply short_linesb_sound; vm_compute; reflexivity|vm_compute; split; [reflexivity|discriminate]]|].
  split; [split; [apply short_linesb_sound; vm_compute; reflexivity|vm_compute; split; [reflexivity|]; repeat (constructor; try discriminate)]|]. vm_compute. reflexivity.
Qed.

(** * Gaps elsewhere *)
Definition rgap_report (cs : list pdata) := let '(rc, s) := history ok_env (OpOpen :: OpReq (pd_slice (texts [msg1; msg2])) :: map OpResp cs) in
  (rc, map (fun it => (t_prog (x_resp (snd it)), t_mlen (x_resp (snd it)), t_elen (x_resp (snd it)))) (s_txs s), reply_body_of 0 (events s)).
Definition endless : bytes := s2b "HTTP/1.1 200 OK" ++ [13;10] ++ s2b "A: b" ++ [13;10;13;10] ++ s2b "world".
Definition in_chunk : nat := (length (head_text rsp2) + 12)%nat.
(** In a header block, or in a chunk, a gap is refused and what arrives next is joined to what came before it. In a body that ends with
    the connection it is told of, but its bytes are not counted as sent. *)
Theorem C86_gaps_elsewhere_refuted :
  rgap_report [pd_slice (firstn 1 (rtexts [rsp1; rsp1])); pd_gapped 2; pd_slice (skipn 1 (rtexts [rsp1; rsp1]))] =
    (ROk [None; Some SsData; Some SsData; Some SsClosed; Some SsData], [(PComplete, 5, 5); (PComplete, 5, 5); (PNotStarted, 0, 0)], s2b "world") /\
  rgap_report [pd_slice (firstn in_chunk (rtexts [rsp2; rsp1])); pd_gapped 2; pd_slice (skipn in_chunk (rtexts [rsp2; rsp1]))] =
    (ROk [None; Some SsData; Some SsData; Some SsClosed; Some SsData], [(PComplete, 32, 13); (PComplete, 5, 5); (PNotStarted, 0, 0)], s2b "0123456789abc") /\
  rgap_report [pd_slice endless; pd_gapped 2; pd_slice (s2b "xy")] =
    (ROk [None; Some SsData; Some SsData; Some SsData; Some SsData], [(PBody, 7, 7); (PNotStarted, 0, 0); (PNotStarted, 0, 0)], s2b "worldxy").
Proof. vm_compute. repeat split. Qed.
Print Assumptions C86_gaps_elsewhere_refuted.
