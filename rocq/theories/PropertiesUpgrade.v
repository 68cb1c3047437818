(** Property C83 of properties.jsonl: a 101 response makes the connection a tunnel. The upgrade: SpecUpgrade.v. *)
From Coq Require Import List Lia Bool.
From Verif Require Import Base Spec SpecTx SpecMsg SpecResp SpecConnect SpecUpgrade ModelState ModelTx ModelConn SpecConn ProofsBase ProofsMsg ProofsRMsg ProofsTalk ProofsConnect4 ProofsUpgrade PropertiesConn PropertiesMsg PropertiesResp PropertiesConnect.

(** * C83 *)
(** After any conversation, a request and a 101 response that tells of no body are parsed in any segmentation. The call with the last
    byte of the response, and every later one from either side, reports a tunnel; what follows the response in its segment and in later
    calls is not looked at: no callback runs any more and no transaction changes. The transaction holds what request and response say,
    and whether the Upgrade line names h2c; its response is not complete. *)
Theorem C83_upgrade_is_tunnel : forall e before u later, accepting e -> Forall good_round before -> good_upgrade u -> upgrade_fits e before u ->
  Forall traffic later ->
  exists s es1 es2 es3,
    history e (conversation before ++ upgrade_ops u ++ later) = (ROk (all_calls before ++ upgrade_calls u ++ map (fun _ => Some SsTunnel) later), s) /\
    events s = es1 ++ es2 ++ es3 /\ conversation_events (e_cfg e) 0 before es1 /\
    stream_events (e_cfg e) (N.of_nat (length (exchanges before))) [ug_request u] es2 /\
    switch_events (N.of_nat (length (exchanges before))) (ug_reply u) es3 /\
    (forall k m r, nth_error (exchanges before) k = Some (m, r) ->
      if c_auto_destroy (e_cfg e) then tx_get (0 + N.of_nat k) (s_txs s) = None
      else exists t, tx_get (0 + N.of_nat k) (s_txs s) = Some t /\ asked m t /\ answered r t) /\
    exists t, tx_get (N.of_nat (length (exchanges before))) (s_txs s) = Some t /\ asked (ug_request u) t /\ switched (ug_reply u) t.
Proof. exact upgrade_run. Qed.
Print Assumptions C83_upgrade_is_tunnel.

(** The conversation of C56, a request, a 101 response with bytes of the new protocol in its last segment, and more of them. *)
Definition sw_rep : response := mk_response (s2b "101") (s2b "Switching Protocols") [hl "Connection" "Upgrade"; hl "Upgrade" "x, H2C"] (Plain []).
Definition preface : bytes := s2b "PRI * HTTP/2.0".
Definition ug : upgrade := mk_upgrade msg1 sw_rep (cut_by 11 99 (texts [msg1])) (cut_by 13 99 (firstn 70 (head_text sw_rep))) (skipn 70 (head_text sw_rep)) preface.
Definition ug_later : list op := [OpReq (pd_slice (texts [msg1])); OpResp (pd_slice (head_text sw_rep)); OpResp (pd_slice [13; 10])].
Lemma never_left_before x w cs : forallb (fun b => negb (bytes_eqb (concat b ++ w) x)) (tails cs) = true -> forall a b, cs = a ++ b -> concat b ++ w <> x.
Proof. intros H a b -> E. rewrite forallb_forall in H. specialize (H b (tails_in a b)). apply negb_true_iff in H. apply bytes_eqb_eq in E. congruence. Qed.
Lemma ug_good : good_upgrade ug.
Proof.
  split; [exact (Forall_inv ex_good)|]. split; [|split; [|split; [|split; [|split; [|split; [|split; [|split; [|split]]]]]]]].
  - split; [reflexivity|]. split; [repeat constructor; discriminate|]. split; [intros c x E; injection E as <- _; reflexivity|].
    split; [repeat (constructor; [apply hlineb_sound; vm_compute; reflexivity|]); constructor|]. split; [|split; [|split; [|reflexivity]]]; apply no_lineb_iff; vm_compute; reflexivity.
  - vm_compute. reflexivity.
  - vm_compute. intuition discriminate.
  - apply cleanb_sound. vm_compute. reflexivity.
  - vm_compute. reflexivity.
  - vm_compute. intuition discriminate.
  - vm_compute. discriminate.
  - apply never_left_before. vm_compute. reflexivity.
  - split; [intros x E; discriminate|]. intros b c x [-> | ->] _ E; discriminate.
  - discriminate.
Qed.
Example C83_ex : accepting ok_env /\ accepting destroying /\ Forall good_round ex_rounds /\ good_upgrade ug /\ upgrade_fits ok_env ex_rounds ug /\ upgrade_fits destroying ex_rounds ug /\ Forall traffic ug_later /\
  only_line "upgrade" (rp_lines sw_rep) (hl "Upgrade" "x, H2C") /\ (exists a w b, nonul (hl_value (hl "Upgrade" "x, H2C")) = a ++ w ++ b /\ name_eq w (s2b "h2c")) /\ (length (ug_up ug) > 3)%nat /\ (length (ug_down ug) > 3)%nat.
Proof.
  split; [exact ex_accepting|]. split; [exact destroying_accepts|]. split; [exact ex_rounds_good|]. split; [exact ug_good|].
  split; [split; [apply fitsb_sound; vm_compute; reflexivity|vm_compute; repeat split; discriminate]|]. split; [split; [apply fitsb_sound; vm_compute; reflexivity|vm_compute; repeat split; discriminate]|].
  split; [repeat constructor; eexists; (split; [|(left; reflexivity) || (right; reflexivity)]); vm_compute; discriminate|].
  split; [exists [hl "Connection" "Upgrade"], []; split; [reflexivity|]; split; [apply namedb_iff; vm_compute; reflexivity|]; split; [constructor; [rewrite <- namedb_iff; vm_compute; discriminate|constructor]|constructor]|]. split; [exists (s2b "x, "), (s2b "H2C"), []; split; [reflexivity|apply name_eq_lowers; vm_compute; reflexivity]|]. vm_compute. lia.
Qed.

(** * When it is none *)
Definition head_data (es : list event) : bytes := flat_map (fun ev => match ev_hook ev, ev_data ev with HResponseHeaderData, PlData d => d | _, _ => [] end) es.
Definition switch_report (r : bytes) := let '(rc, s) := history ok_env [OpOpen; OpReq (pd_slice (texts [msg1])); OpResp (pd_slice r); OpResp (pd_slice preface)] in
  (rc, option_map (fun t => t_prog (x_resp t)) (tx_get 0 (s_txs s)), head_data (events s)).
Definition sw_sized : response := mk_response (s2b "101") (s2b "Switching Protocols") [hl "Upgrade" "h2c"; hl "Content-Length" "0"] (Plain []).
Definition sw_coded : response := mk_response (s2b "101") (s2b "Switching Protocols") [hl "Upgrade" "h2c"; hl "Transfer-Encoding" "chunked"] (Plain []).
Definition sw_bare : response := mk_response (s2b "101") (s2b "Switching Protocols") [] (Plain []).
(** A 101 response with a Content-Length of zero, or one that says to come in chunks, is a response as any other and is completed. One of only a status line, with bytes of
    the new protocol in its segment, is never left: they are taken for header lines. Without them it is a tunnel. *)
Theorem C83_no_tunnel_refuted :
  switch_report (head_text sw_rep ++ preface) = (ROk [None; Some SsData; Some SsTunnel; Some SsTunnel], Some PHeaders, block_text (rp_lines sw_rep) ++ [13; 10]) /\
  switch_report (head_text sw_sized) = (ROk [None; Some SsData; Some SsData; Some SsData], Some PComplete, block_text (rp_lines sw_sized) ++ [13; 10]) /\
  switch_report (head_text sw_coded ++ s2b "0" ++ [13; 10; 13; 10]) = (ROk [None; Some SsData; Some SsData; Some SsData], Some PComplete, block_text (rp_lines sw_coded) ++ [13; 10]) /\
  switch_report (head_text sw_bare) = (ROk [None; Some SsData; Some SsTunnel; Some SsTunnel], Some PHeaders, [13; 10]) /\
  switch_report (head_text sw_bare ++ preface) = (ROk [None; Some SsData; Some SsData; Some SsData], Some PHeaders, [13; 10] ++ preface ++ preface).
Proof. split; [|split; [|split; [|split]]]; vm_compute; reflexivity. Qed.
Print Assumptions C83_no_tunnel_refuted.
