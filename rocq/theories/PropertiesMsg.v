(** Properties C22, C37, C38 and C51 of properties.jsonl: streams of well-formed requests, cut anywhere but at the places that
    [no_cut] lists. Messages, their text and what is expected of them: SpecMsg.v. *)
From Verif Require Import Base Spec SpecTx SpecMsg ModelState ModelTx ModelConn SpecConn ProofsMsg PropertiesConn.

(** Four messages for the examples: a GET, a POST with a body and a repeated header, a POST with a chunked body, a chunk extension
    and a trailer, and a request without header lines. *)
Definition hl (n v : string) : hline := {| hl_name := s2b n; hl_pre := [32]; hl_value := s2b v; hl_post := [] |}.
Definition msg1 : message := mk_message (mk_request (s2b "GET") (s2b "/a?x=1&y=2") [hl "Host" "h"; hl "Content-Type" "text/plain"]) (Plain []).
Definition msg2 : message := mk_message (mk_request (s2b "POST") (s2b "/b") [hl "Host" "h"; hl "X-A" "1"; hl "Content-Length" "5"; hl "x-a" "2"]) (Plain (s2b "hello")).
Definition msg3 : message := mk_message (mk_request (s2b "GET") (s2b "/c") []) (Plain []).
Definition ck (n x d : string) : chunk := mk_chunk (s2b n) (s2b x) (s2b d).
Definition msg4 : message := mk_message (mk_request (s2b "POST") (s2b "/d") [hl "Host" "h"; hl "X-A" "1"; hl "Transfer-Encoding" "Chunked"])
  (Chunked [ck "00a" ";x=1" "0123456789"; ck "3" "" "abc"] (ck "0" "" "") [hl "X-Sum" "17"; hl "x-a" "2"]).
Definition ex_msgs : list message := [msg1; msg2; msg4; msg3].
(** The stream of the four messages in segments of [n] bytes. *)
Fixpoint cut_by (n fuel : nat) (l : bytes) : list bytes :=
  match fuel, l with
  | S f, _ :: _ => firstn n l :: cut_by n f (skipn n l)
  | _, _ => []
  end.
Definition ex_cut (n : nat) : list bytes := cut_by n 200 (texts ex_msgs).
(** * C51 *)
(** Every request of the stream is read for what it is: every call asks for more, the callbacks of request [k] run in the order and
    with the data of [message_events], request after request, query parameters included, and its transaction holds the method,
    the target and its parts, the host of the Host header, the protocol, the header table and the lengths of the message. *)
Theorem C51_well_formed_stream_is_parsed : forall e ms cs, accepting e -> Forall good_message ms -> fits e ms ->
  ~ In [] cs -> concat cs = texts ms -> clean ms cs [] ->
  exists s, history e (requests_in cs) = (ROk (all_data cs), s) /\ stream_events (e_cfg e) 0 ms (events s) /\
    (forall k m, nth_error ms k = Some m -> exists t, tx_get (N.of_nat k) (s_txs s) = Some t /\ holds m t).
Proof. exact stream_parsed. Qed.
Print Assumptions C51_well_formed_stream_is_parsed.
Lemma ex_accepting : accepting ok_env.
Proof. split; [left; reflexivity|reflexivity]. Qed.
Lemma ex_good : Forall good_message ex_msgs. Proof. apply messagesb_sound. vm_compute. reflexivity. Qed.
Lemma ex_fits : fits ok_env ex_msgs.
Proof. split; [repeat constructor; vm_compute; discriminate|]. split; [vm_compute; discriminate|reflexivity]. Qed.
(** Segments of 19, 26 and 43 bytes. *)
Example C51_ex : Forall good_message ex_msgs /\ fits ok_env ex_msgs /\ accepting ok_env /\ blen (texts ex_msgs) = 268 /\
  Forall (fun n => ~ In [] (ex_cut n) /\ concat (ex_cut n) = texts ex_msgs /\ clean ex_msgs (ex_cut n) []) [19; 26; 43]%nat.
Proof.
  split; [exact ex_good|]. split; [exact ex_fits|]. split; [exact ex_accepting|]. split; [vm_compute; reflexivity|].
  repeat constructor; try (vm_compute; reflexivity); try (apply cleanb_sound; vm_compute; reflexivity); intro H; vm_compute in H; intuition discriminate.
Qed.
(** Targets, hosts and parameters: the target of the first message is in origin form and its Host line names a host; in the third
    example the target is in absolute form. An environment that asks for the parameters gets them, percent escapes resolved. *)
Definition origin (p q : string) : uri_parts :=
  {| up_scheme := []; up_cred := None; up_host := []; up_portt := None; up_path := Some (s2b p); up_query := Some (s2b q); up_frag := None |}.
Definition asking : env := ex_env (set_c_parse_urlenc true (set_c_param_proc true config_default)) (fun _ _ => SOk).
Definition msg5 : message := mk_message (mk_request (s2b "GET") (s2b "/p?a=%41&&b") [hl "X" "1"; hl "HOST" "WWW.h.org:8080"]) (Plain []).
Definition msg6_parts : uri_parts :=
  {| up_scheme := s2b "http"; up_cred := Some (s2b "u", Some (s2b "p")); up_host := s2b "h"; up_portt := Some (s2b "81"); up_path := Some (s2b "/"); up_query := Some (s2b "k=v"); up_frag := None |}.
Definition msg6 : message := mk_message (mk_request (s2b "GET") (uri_text msg6_parts) []) (Plain []).
Ltac bytes_apart := repeat constructor; let Hb := fresh in intro Hb; vm_compute in Hb; intuition discriminate.
Ltac ends_apart := let E := fresh in intros ? E; apply (f_equal (fun l => last l 0)) in E; rewrite last_last in E; vm_compute in E; discriminate.
Ltac host_apart := split; [discriminate|]; split; [bytes_apart|]; split; [intros ?; discriminate|]; split; [intros ?; discriminate|ends_apart].
Example C51_ex_target : origin_form (rq_target (m_req msg1)) (origin "/a" "x=1&y=2") /\ only_line "host" (rq_lines (m_req msg1)) (hl "Host" "h") /\
  host_text (hl_value (hl "Host" "h")) (s2b "h") None.
Proof.
  split.
  - split; [split|split; [eexists; reflexivity|reflexivity]].
    + intros p [= <-]. split; [eexists; reflexivity|bytes_apart].
    + intros q [= <-]. split; [discriminate|bytes_apart].
  - split.
    + exists [], [hl "Content-Type" "text/plain"]. split; [reflexivity|]. split; [apply namedb_iff; vm_compute; reflexivity|]. split; [constructor|]. constructor; [rewrite <- namedb_iff; vm_compute; discriminate|constructor].
    + split; [left; host_apart|left; split; reflexivity].
Qed.
Example C51_ex_host_port : host_text (hl_value (hl "HOST" "WWW.h.org:8080")) (s2b "WWW.h.org") (Some 8080).
Proof.
  split; [left; host_apart|].
  right. exists (s2b "8080"). split; [reflexivity|]. split; [discriminate|]. split; [repeat constructor; vm_compute; discriminate|]. split; [vm_compute; split; discriminate|reflexivity].
Qed.
Example C51_ex_parameters : accepting asking /\ Forall good_message [msg1; msg5; msg6] /\ fits asking [msg1; msg5; msg6] /\
  (exists s t1 t2, history asking (requests_in [texts [msg1; msg5; msg6]]) = (ROk [None; Some SsData], s) /\
    filter (fun ev => match ev_hook ev with HParam => true | _ => false end) (events s) =
      [mk_ev HParam 0 (PlParam (s2b "x") (s2b "1")); mk_ev HParam 0 (PlParam (s2b "y") (s2b "2"));
       mk_ev HParam 1 (PlParam (s2b "a") (s2b "A")); mk_ev HParam 1 (PlParam (s2b "b") []); mk_ev HParam 2 (PlParam (s2b "k") (s2b "v"))] /\
    tx_get 1 (s_txs s) = Some t1 /\ x_host t1 = Some (s2b "www.h.org") /\ x_port t1 = Some 8080 /\
    tx_get 2 (s_txs s) = Some t2 /\ x_raw t2 = Some (absolute_uri msg6_parts)).
Proof.
  split; [split; [left; reflexivity|reflexivity]|]. split; [apply messagesb_sound; vm_compute; reflexivity|].
  split; [split; [repeat constructor; vm_compute; discriminate|]; split; [vm_compute; discriminate|reflexivity]|].
  eexists _, _, _. split; [vm_compute; reflexivity|]. repeat (split; [vm_compute; reflexivity|]). vm_compute; reflexivity.
Qed.
(** The condition on the cuts is needed: with the empty line cut in two and the body behind its LF, the first byte of the body
    disappears. *)
Theorem C51_cut_in_empty_line_refuted : exists cs, ~ In [] cs /\ concat cs = texts [msg2] /\
  body_of 0 (events (snd (history ok_env (requests_in cs)))) = s2b "ello" /\ m_body msg2 = s2b "hello".
Proof.
  exists [request_line_text (m_req msg2) ++ block_text (rq_lines (m_req msg2)) ++ [13]; [10] ++ content_text (m_content msg2)].
  split; [intros [H | [H | []]]; vm_compute in H; discriminate|]. split; [reflexivity|]. split; [vm_compute; reflexivity|reflexivity].
Qed.
Print Assumptions C51_cut_in_empty_line_refuted.

(** * C37 *)
(** The body callbacks of every request get exactly its body, and the transaction counts exactly its length. *)
Theorem C37_bodies_exact : forall e ms cs, accepting e -> Forall good_message ms -> fits e ms ->
  ~ In [] cs -> concat cs = texts ms -> clean ms cs [] ->
  exists s, history e (requests_in cs) = (ROk (all_data cs), s) /\ forall k m b, nth_error ms k = Some m -> m_content m = Plain b ->
    body_of (N.of_nat k) (events s) = b /\
    exists t, tx_get (N.of_nat k) (s_txs s) = Some t /\ t_elen (x_req t) = blen b /\ t_mlen (x_req t) = blen b.
Proof. exact plain_exact. Qed.
Print Assumptions C37_bodies_exact.
(** They get it as it arrives: while [b2] is still to come they have [b1]. *)
Theorem C37_bodies_prompt : forall e ms m cs b1 b2, accepting e -> Forall good_message (ms ++ [m]) -> fits e (ms ++ [m]) ->
  ~ In [] cs -> m_content m = Plain (b1 ++ b2) -> b2 <> [] -> concat cs ++ b2 = texts (ms ++ [m]) -> clean (ms ++ [m]) cs b2 ->
  exists s t, history e (requests_in cs) = (ROk (all_data cs), s) /\ body_of (N.of_nat (length ms)) (events s) = b1 /\
    tx_get (N.of_nat (length ms)) (s_txs s) = Some t /\ t_elen (x_req t) = blen b1 /\ t_mlen (x_req t) = blen b1.
Proof. exact plain_prompt. Qed.
Print Assumptions C37_bodies_prompt.
Example C37_ex : exists b1 b2, m_content msg2 = Plain (b1 ++ b2) /\ b1 <> [] /\ b2 <> [] /\ exists cs, length cs = 3%nat /\ ~ In [] cs /\
  concat cs ++ b2 = texts ([msg1] ++ [msg2]) /\ clean ([msg1] ++ [msg2]) cs b2 /\
  body_of 1 (events (snd (history ok_env (requests_in cs)))) = s2b "hel".
Proof.
  exists (s2b "hel"), (s2b "lo"). split; [reflexivity|]. split; [discriminate|]. split; [discriminate|].
  exists (cut_by 43 9 (firstn 129 (texts [msg1; msg2]))). split; [vm_compute; reflexivity|].
  split; [intro H; vm_compute in H; intuition discriminate|]. split; [vm_compute; reflexivity|]. split; [apply cleanb_sound|]; vm_compute; reflexivity.
Qed.

(** * C38 *)
(** The body callbacks of a request with a chunked body get exactly the data of its chunks; the entity length counts them, the
    message length counts the chunks as they were sent, with their size lines, up to the trailer. *)
Theorem C38_chunked_bodies_exact : forall e ms cs, accepting e -> Forall good_message ms -> fits e ms ->
  ~ In [] cs -> concat cs = texts ms -> clean ms cs [] ->
  exists s, history e (requests_in cs) = (ROk (all_data cs), s) /\ forall k m chunks last trailer, nth_error ms k = Some m ->
    m_content m = Chunked chunks last trailer ->
    body_of (N.of_nat k) (events s) = concat (map ck_data chunks) /\
    exists t, tx_get (N.of_nat k) (s_txs s) = Some t /\ t_elen (x_req t) = blen (concat (map ck_data chunks)) /\
      t_mlen (x_req t) = blen (concat (map chunk_text (chunks ++ [last]))).
Proof. exact chunked_exact. Qed.
Print Assumptions C38_chunked_bodies_exact.
(** They get it as it arrives: when [x] of the content arrived they have the data bytes in [x]. *)
Theorem C38_chunked_bodies_prompt : forall e ms m cs x y chunks last trailer, accepting e -> Forall good_message (ms ++ [m]) -> fits e (ms ++ [m]) ->
  ~ In [] cs -> m_content m = Chunked chunks last trailer -> content_text (m_content m) = x ++ y -> y <> [] ->
  concat cs ++ y = texts (ms ++ [m]) -> clean (ms ++ [m]) cs y ->
  exists s t, history e (requests_in cs) = (ROk (all_data cs), s) /\
    body_of (N.of_nat (length ms)) (events s) = chunks_before chunks (length x) /\
    tx_get (N.of_nat (length ms)) (s_txs s) = Some t /\ t_elen (x_req t) = blen (chunks_before chunks (length x)) /\
    t_mlen (x_req t) = N.min (blen x) (blen (concat (map chunk_text (chunks ++ [last])))).
Proof. exact chunked_prompt. Qed.
Print Assumptions C38_chunked_bodies_prompt.
(** Two segments, the second ends in the middle of the second chunk. *)
Example C38_ex : exists cs x y, length cs = 2%nat /\ ~ In [] cs /\ content_text (m_content msg4) = x ++ y /\ y <> [] /\
  concat cs ++ y = texts ([msg2] ++ [msg4]) /\ clean ([msg2] ++ [msg4]) cs y /\
  body_of 1 (events (snd (history ok_env (requests_in cs)))) = s2b "0123456789ab".
Proof.
  exists (cut_by 100 9 (firstn 160 (texts [msg2; msg4]))), (firstn 26 (content_text (m_content msg4))), (skipn 26 (content_text (m_content msg4))).
  split; [vm_compute; reflexivity|]. split; [intro H; vm_compute in H; intuition discriminate|]. split; [symmetry; apply firstn_skipn|]. split; [vm_compute; discriminate|].
  split; [vm_compute; reflexivity|]. split; [apply cleanb_sound|]; vm_compute; reflexivity.
Qed.
(** The conditions on the cuts are needed. With the first size line cut before its CR LF, the size of the second chunk is read
    wrong and the callbacks get what is not data. *)
Theorem C38_cut_in_size_line_refuted : exists cs, ~ In [] cs /\ concat cs = texts [msg4] /\
  body_of 0 (events (snd (history ok_env (requests_in cs)))) = s2b "0123456789abc" ++ [13; 10] ++ s2b "0" ++ [13; 10] ++ s2b "X-" ++ [13; 10] /\
  m_body msg4 = s2b "0123456789abc".
Proof.
  exists [request_text (m_req msg4) ++ s2b "00a;x=1"; [13; 10] ++ skipn 9 (content_text (m_content msg4))].
  split; [intros [H | [H | []]]; vm_compute in H; discriminate|]. split; [reflexivity|]. split; vm_compute; reflexivity.
Qed.
Print Assumptions C38_cut_in_size_line_refuted.
(** With the CR LF behind the data of a chunk cut in two, the message length counts bytes twice. *)
Theorem C38_cut_in_chunk_end_refuted : exists cs t, ~ In [] cs /\ concat cs = texts [msg4] /\
  tx_get 0 (s_txs (snd (history ok_env (requests_in cs)))) = Some t /\ t_prog (x_req t) = PComplete /\
  t_mlen (x_req t) = 34 /\ blen (coded_text (m_content msg4)) = 32.
Proof.
  exists [request_text (m_req msg4) ++ s2b "00a;x=1" ++ [13; 10] ++ s2b "0123456789" ++ [13]; skipn 20 (content_text (m_content msg4))].
  eexists. split; [intros [H | [H | []]]; vm_compute in H; discriminate|]. split; [reflexivity|]. split; [vm_compute; reflexivity|]. split; [reflexivity|split; reflexivity].
Qed.
Print Assumptions C38_cut_in_chunk_end_refuted.

(** * C22 *)
(** Requests: the header tables do not depend on the cuts, and are the tables of C24. (Responses: PropertiesResp.v.) *)
Theorem C22_request_header_tables : forall e ms cs, accepting e -> Forall good_message ms -> fits e ms ->
  ~ In [] cs -> concat cs = texts ms -> clean ms cs [] -> ms <> [] ->
  exists s s1, history e (requests_in cs) = (ROk (all_data cs), s) /\ history e (requests_in [texts ms]) = (ROk (all_data [texts ms]), s1) /\
    forall k m, nth_error ms k = Some m -> exists t t1, tx_get (N.of_nat k) (s_txs s) = Some t /\ tx_get (N.of_nat k) (s_txs s1) = Some t1 /\
      map view (t_headers (x_req t)) = map view (t_headers (x_req t1)) /\
      map view (t_headers (x_req t1)) = merged_table (map kv_of (rq_lines (m_req m) ++ trailer_of (m_content m))).
Proof. exact header_tables. Qed.
Print Assumptions C22_request_header_tables.
Example C22_ex : exists t t', tx_get 1 (s_txs (snd (history ok_env (requests_in (ex_cut 19))))) = Some t /\ tx_get 2 (s_txs (snd (history ok_env (requests_in (ex_cut 19))))) = Some t' /\
  map view (t_headers (x_req t)) = [(s2b "Host", s2b "h", false); (s2b "X-A", s2b "1, 2", true); (s2b "Content-Length", s2b "5", false)] /\
  map view (t_headers (x_req t')) = [(s2b "Host", s2b "h", false); (s2b "X-A", s2b "1, 2", true); (s2b "Transfer-Encoding", s2b "Chunked", false); (s2b "X-Sum", s2b "17", false)].
Proof. eexists _, _. split; [vm_compute; reflexivity|]. split; [vm_compute; reflexivity|]. split; vm_compute; reflexivity. Qed.
