(** Property C80 of properties.jsonl: conversations that end with the connection, also in the middle of a response whose head does not
    tell how long its body is. The last response and the closing: SpecEnd.v. *)
From Coq Require Import List Lia.
From Verif Require Import Base Spec SpecTx SpecMsg SpecResp SpecEnd ModelState ModelTx ModelConn SpecConn ProofsMsg ProofsRMsg ProofsTalk ProofsClose PropertiesConn PropertiesMsg PropertiesResp.

(** * C80 *)
(** When the last response has a body of unknown length, closing the connection ends it: every call before asks for more, the
    callbacks of every exchange run in the order and with the data of [message_events] and [response_events] (for the last response
    too, its completion once and last), and its transaction holds what request and response say; unless complete transactions are
    freed, in which case it is gone. *)
Theorem C80_close_ends_last_response : forall e rounds last, accepting e -> Forall good_round rounds -> last_round last -> talk_fits e (rounds ++ [last]) ->
  exists s, history e (closed_after (rounds ++ [last])) = (ROk (closed_calls (rounds ++ [last])), s) /\
    conversation_events (e_cfg e) 0 (rounds ++ [last]) (events s) /\
    (forall k m r, nth_error (exchanges (rounds ++ [last])) k = Some (m, r) ->
      if c_auto_destroy (e_cfg e) then tx_get (N.of_nat k) (s_txs s) = None
      else exists t, tx_get (N.of_nat k) (s_txs s) = Some t /\ asked m t /\ answered r t).
Proof. exact ended_open. Qed.
Print Assumptions C80_close_ends_last_response.
(** Every body reaches the callbacks of its own transaction whole, once and in order, that of the last response too. *)
Theorem C80_last_body_exact : forall e rounds last, accepting e -> Forall good_round rounds -> last_round last -> talk_fits e (rounds ++ [last]) ->
  exists s, history e (closed_after (rounds ++ [last])) = (ROk (closed_calls (rounds ++ [last])), s) /\
    forall k m r, nth_error (exchanges (rounds ++ [last])) k = Some (m, r) ->
      body_of (N.of_nat k) (events s) = m_body m /\ reply_body_of (N.of_nat k) (events s) = rp_body r.
Proof. exact ended_bodies. Qed.
Print Assumptions C80_last_body_exact.
(** Closing the connection when every exchange is over does nothing: no further callback runs and the transactions stay as they
    are, whether or not incomplete transactions are flushed. *)
Theorem C80_close_quiet : forall e rounds, accepting e -> Forall good_round rounds -> talk_fits e rounds ->
  exists s, history e (closed_after rounds) = (ROk (closed_calls rounds), s) /\ conversation_events (e_cfg e) 0 rounds (events s) /\
    (forall k m r, nth_error (exchanges rounds) k = Some (m, r) ->
      if c_auto_destroy (e_cfg e) then tx_get (N.of_nat k) (s_txs s) = None
      else exists t, tx_get (N.of_nat k) (s_txs s) = Some t /\ asked m t /\ answered r t).
Proof. exact ended_quiet. Qed.
Print Assumptions C80_close_quiet.

(** The conversation of C56 and one more exchange, whose response has no length and comes in pieces of 7 bytes. *)
Definition rsp5 : response := mk_response (s2b "200") (s2b "OK") [hl "Server" "x"; hl "Content-Type" "text/html"] (Plain (s2b "<p>as long as it is open</p>")).
Definition ex_last : round := mk_round [(msg1, rsp5)] (cut_by 40 99 (texts [msg1])) (cut_by 7 99 (rtexts [rsp5])).
Definition flushing : env := ex_env (set_c_flush true config_default) (fun _ _ => SOk).
Lemma flushing_accepts : accepting flushing. Proof. split; [intros s ev; left; reflexivity|intros; reflexivity]. Qed.
Lemma contains_length v w : contains v w -> (length (s2b w) <= length v)%nat.
Proof. intros (a & x & b & -> & H). assert (E : length x = length (s2b w)) by (clear - H; induction H; cbn; congruence). rewrite !app_length. lia. Qed.
Lemma ex_last_good : last_round ex_last.
Proof.
  exists msg1, rsp5. split; [reflexivity|]. split; [apply messageb_sound; vm_compute; reflexivity|]. split.
  - split; [reflexivity|]. split; [repeat constructor; discriminate|]. split; [discriminate|]. split; [repeat constructor; discriminate|].
    split; [intros c x E; injection E as <- _; reflexivity|]. split; [repeat (constructor; [apply hlineb_sound; vm_compute; reflexivity|]); constructor|].
    split; [discriminate|]. split; [apply no_lineb_iff; vm_compute; reflexivity|]. split; [rewrite <- bodilessb_iff; vm_compute; discriminate|].
    split; [|split; [exists (s2b "<p>as long as it is open</p>"); split; [reflexivity|]; split; [vm_compute; reflexivity|apply smoothb_sound; vm_compute; reflexivity]|]].
    + split; [apply no_lineb_iff; vm_compute; reflexivity|]. split; [apply no_lineb_iff; vm_compute; reflexivity|]. right. exists (hl "Content-Type" "text/html"). split.
      * exists [hl "Server" "x"], []. split; [reflexivity|]. split; [apply namedb_iff; vm_compute; reflexivity|]. split; apply no_lineb_iff; vm_compute; reflexivity.
      * intro H. apply contains_length in H. vm_compute in H. lia.
    + intros [H _]. vm_compute in H. now elim H.
  - split; [vm_compute; reflexivity|]. split; [vm_compute; intuition discriminate|]. split; [apply cleanb_sound; vm_compute; reflexivity|].
    split; [vm_compute; reflexivity|]. split; [vm_compute; intuition discriminate|]. apply rcleanb_sound. vm_compute. reflexivity.
Qed.
Example C80_ex : Forall good_round ex_rounds /\ last_round ex_last /\ accepting ok_env /\ accepting destroying /\ accepting flushing /\
  talk_fits ok_env (ex_rounds ++ [ex_last]) /\ talk_fits destroying (ex_rounds ++ [ex_last]) /\ talk_fits flushing (ex_rounds ++ [ex_last]) /\
  length (exchanges (ex_rounds ++ [ex_last])) = 6%nat /\ (length (rd_down ex_last) > 10)%nat.
Proof.
  split; [exact ex_rounds_good|]. split; [exact ex_last_good|]. split; [exact ex_accepting|]. split; [exact destroying_accepts|]. split; [exact flushing_accepts|].
  split; [apply fitsb_sound; vm_compute; reflexivity|]. split; [apply fitsb_sound; vm_compute; reflexivity|]. split; [apply fitsb_sound; vm_compute; reflexivity|]. split; vm_compute; [reflexivity|]. lia.
Qed.
(** Before the connection is closed the last response is not complete; afterwards it is. *)
Definition last_state (l : list op) := let s := snd (history ok_env l) in
  (option_map (fun t => t_prog (x_resp t)) (tx_get 5 (s_txs s)), length (filter (fun ev => match ev_hook ev with HResponseComplete => ev_tx ev =? 5 | _ => false end) (events s)), reply_body_of 5 (events s)).
Example C80_before_and_after : last_state (conversation (ex_rounds ++ [ex_last])) = (Some PBody, 0%nat, rp_body rsp5) /\
  last_state (closed_after (ex_rounds ++ [ex_last])) = (Some PComplete, 1%nat, rp_body rsp5).
Proof. split; vm_compute; reflexivity. Qed.

(** * Why the last response is restricted *)
Definition heard (cs : list bytes) :=
  let s := snd (history ok_env (OpOpen :: OpReq (pd_slice (texts [msg1])) :: map (fun c => OpResp (pd_slice c)) cs ++ [OpClose])) in
  (option_map (fun t => (x_status t, t_prog (x_resp t))) (tx_get 0 (s_txs s)), reply_body_of 0 (events s)).
Definition resp_of (ls : list hline) (b : string) : response := mk_response (s2b "200") (s2b "OK") ls (Plain (s2b b)).
(** Without header lines, the body that comes in the segment of the head is lost; in a segment of its own it is not. *)
Theorem C80_no_header_lines_refuted : heard [rtexts [resp_of [] "body"]] = (Some (Some (s2b "200"), PComplete), []) /\
  heard [rtexts [resp_of [] ""]; s2b "body"] = (Some (Some (s2b "200"), PComplete), s2b "body") /\
  heard [rtexts [resp_of [hl "Server" "x"] "body"]] = (Some (Some (s2b "200"), PComplete), s2b "body").
Proof. split; [|split]; vm_compute; reflexivity. Qed.
Print Assumptions C80_no_header_lines_refuted.
(** With a body in parts (multipart/byteranges) the response is never complete, and no body is delivered. *)
Theorem C80_multipart_refuted : heard [rtexts [resp_of [hl "Content-Type" "multipart/byteranges; boundary=x"] "body"]] = (Some (Some (s2b "200"), PHeaders), []).
Proof. vm_compute. reflexivity. Qed.
Print Assumptions C80_multipart_refuted.
(** A response that is cut off in a body of known length, or in its status line, is complete when the connection is closed, like a whole
    one; one that is cut off in a chunked body is not. *)
Theorem C80_cut_off_refuted : heard [rtexts [resp_of [hl "Content-Length" "9"] "body"]] = (Some (Some (s2b "200"), PComplete), s2b "body") /\
  heard [firstn 10 (rtexts [resp_of [hl "Content-Length" "4"] "body"])] = (Some (Some (s2b "2"), PComplete), []) /\
  heard [rtexts [mk_response (s2b "200") (s2b "OK") [hl "Transfer-Encoding" "chunked"] (Plain (s2b "9" ++ [13; 10] ++ s2b "body"))]] = (Some (Some (s2b "200"), PBody), s2b "body").
Proof. split; [|split]; vm_compute; reflexivity. Qed.
Print Assumptions C80_cut_off_refuted.
