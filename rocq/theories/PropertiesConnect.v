(** Property C81 of properties.jsonl: a tunnel is asked for with CONNECT and granted, and what follows is tunnelled or parsed. The
    handshake and what follows it: SpecConnect.v. *)
From Coq Require Import List Lia Bool.
From Verif Require Import Base Spec SpecTx SpecMsg SpecResp SpecEnd SpecConnect ModelState ModelTx ModelConn SpecConn ProofsBase ProofsMsg ProofsRMsg ProofsTalk ProofsConnect4 ProofsConnect5 PropertiesConn PropertiesMsg PropertiesResp.

(** * C81 *)
(** After any conversation, a CONNECT request and a response that grants it are parsed in any segmentation, and while no line feed
    and no zero byte comes from the client every call asks for more. If the first word the client sends then names no method, that
    call and every later one, from either side, reports a tunnel, no callback runs any more and no transaction changes. The
    transaction of the CONNECT holds what request and response say and its response is complete; its request is not. *)
Theorem C81_tunnel_left_alone : forall e before h quiet w later line word, accepting e -> Forall good_round before -> good_handshake h ->
  tunnel_fits e before h [] -> ~ In [] quiet -> first_text quiet w line -> blen line <= c_field_limit (e_cfg e) ->
  first_word line word -> ~ In word known_methods -> Forall traffic later ->
  exists s es1 es2,
    history e (conversation before ++ handshake_ops h ++ reqs quiet ++ OpReq (pd_slice w) :: later) =
      (ROk (all_calls before ++ more (handshake_ops h ++ reqs quiet) ++ Some SsTunnel :: map (fun _ => Some SsTunnel) later), s) /\
    events s = es1 ++ es2 /\ conversation_events (e_cfg e) 0 before es1 /\ handshake_events (N.of_nat (length (exchanges before))) h es2 /\
    (forall k m r, nth_error (exchanges before) k = Some (m, r) ->
      if c_auto_destroy (e_cfg e) then tx_get (0 + N.of_nat k) (s_txs s) = None
      else exists t, tx_get (0 + N.of_nat k) (s_txs s) = Some t /\ asked m t /\ answered r t) /\
    exists t, tx_get (N.of_nat (length (exchanges before))) (s_txs s) = Some t /\ tunnel_asked (hk_request h) PHeaders t /\ answered (hk_reply h) t.
Proof. exact tunnel_run. Qed.
Print Assumptions C81_tunnel_left_alone.
(** If the client goes on with requests instead, the transaction of the CONNECT is completed before the first of them starts, and the
    conversation is parsed as on a connection of its own, in any segmentation. *)
Theorem C81_requests_go_on : forall e before h rd rds, accepting e -> Forall good_round before -> good_handshake h ->
  Forall good_round (rd :: rds) -> rd_exchanges rd <> [] -> tunnel_fits e before h (rd :: rds) ->
  let n := N.of_nat (length (exchanges before)) in let after := rd :: rds in
  exists s es1 es2 es3,
    history e (conversation before ++ handshake_ops h ++ concat (map round_ops after)) =
      (ROk (all_calls before ++ more (handshake_ops h ++ concat (map round_ops after))), s) /\
    events s = es1 ++ es2 ++ [mk_ev HRequestComplete n PlNone; mk_ev HTransactionComplete n PlNone] ++ es3 /\
    conversation_events (e_cfg e) 0 before es1 /\ handshake_events n h es2 /\ conversation_events (e_cfg e) (n + 1) after es3 /\
    (forall k m r, nth_error (exchanges before) k = Some (m, r) ->
      if c_auto_destroy (e_cfg e) then tx_get (0 + N.of_nat k) (s_txs s) = None
      else exists t, tx_get (0 + N.of_nat k) (s_txs s) = Some t /\ asked m t /\ answered r t) /\
    (forall k m r, nth_error (exchanges after) k = Some (m, r) ->
      if c_auto_destroy (e_cfg e) then tx_get (n + 1 + N.of_nat k) (s_txs s) = None
      else exists t, tx_get (n + 1 + N.of_nat k) (s_txs s) = Some t /\ asked m t /\ answered r t) /\
    if c_auto_destroy (e_cfg e) then tx_get n (s_txs s) = None
    else exists t, tx_get n (s_txs s) = Some t /\ tunnel_asked (hk_request h) PComplete t /\ answered (hk_reply h) t.
Proof. exact resume_run. Qed.
Print Assumptions C81_requests_go_on.

(** A client that does not wait: whatever it sends after its request and before the status line of the answer is read, mixed in any way
    with the segments of that line, is not looked at. Each such call asks to be repeated after the other side had its turn, and
    everything else is as if it had not been made. *)
Theorem C81_client_waits : forall e before h early down quiet w later line word, accepting e -> Forall good_round before -> good_handshake h ->
  tunnel_fits e before h [] -> Forall (fun x => snd x <> []) early -> hk_down h = from_server early ++ down -> ~ In 10 (concat (from_server early)) ->
  ~ In [] quiet -> first_text quiet w line -> blen line <= c_field_limit (e_cfg e) ->
  first_word line word -> ~ In word known_methods -> Forall traffic later ->
  exists s es1 es2,
    history e (conversation before ++ (reqs (hk_up h) ++ map spoken early ++ resps down) ++ reqs quiet ++ OpReq (pd_slice w) :: later) =
      (ROk (all_calls before ++ ((more (reqs (hk_up h)) ++ map call_gives early ++ more (resps down)) ++ more (reqs quiet)) ++
            Some SsTunnel :: map (fun _ => Some SsTunnel) later), s) /\
    events s = es1 ++ es2 /\ conversation_events (e_cfg e) 0 before es1 /\ handshake_events (N.of_nat (length (exchanges before))) h es2 /\
    (forall k m r, nth_error (exchanges before) k = Some (m, r) ->
      if c_auto_destroy (e_cfg e) then tx_get (0 + N.of_nat k) (s_txs s) = None
      else exists t, tx_get (0 + N.of_nat k) (s_txs s) = Some t /\ asked m t /\ answered r t) /\
    exists t, tx_get (N.of_nat (length (exchanges before))) (s_txs s) = Some t /\ tunnel_asked (hk_request h) PHeaders t /\ answered (hk_reply h) t.
Proof. exact early_tunnel_run. Qed.
Print Assumptions C81_client_waits.

(** The conversation of C56, a tunnel, and either a TLS record in three segments or that conversation again. *)
Definition hk_req : request := mk_request (s2b "CONNECT") (s2b "Example.com:443") [hl "Host" "example.com:443"; hl "X-Note" "y"].
Definition hk_rep : response := mk_response (s2b "200") (s2b "Connection established") [hl "Via" "x"; hl "Content-Length" "77"] (Plain []).
Definition hk : handshake := mk_handshake hk_req hk_rep (cut_by 11 99 (request_text hk_req)) (cut_by 13 99 (head_text hk_rep)).
Definition tls_quiet : list bytes := [[22]; [3; 1]].
Definition tls_first : bytes := [5; 1; 0; 1; 2; 10; 7].
Definition tls_rest : list op := [OpResp (pd_slice (s2b "GET / HTTP/1.1")); OpReq (pd_slice (texts [msg1])); OpReq (pd_slice [0; 10; 0])].
Lemma never_left x cs : forallb (fun b => negb (bytes_eqb (concat b) x)) (tails cs) = true -> forall a b, cs = a ++ b -> concat b <> x.
Proof. intros H a b -> E. rewrite forallb_forall in H. specialize (H b (tails_in a b)). apply negb_true_iff in H. apply bytes_eqb_eq in E. congruence. Qed.
Lemma hk_good : good_handshake hk.
Proof.
  split; [|split; [|split; [|split; [|split; [|split; [|split]]]]]].
  - split; [reflexivity|]. split; [discriminate|]. split; [vm_compute; repeat (constructor; [split; discriminate|]); constructor|]. split; [repeat (constructor; [apply hlineb_sound; vm_compute; reflexivity|]); constructor|].
    split; [intros l Hl; exfalso; apply (first_not_none "content-type" (rq_lines hk_req) l Hl); apply no_lineb_iff; vm_compute; reflexivity|]. split; [|split]; apply no_lineb_iff; vm_compute; reflexivity.
  - split; [reflexivity|]. split; [repeat constructor; discriminate|]. split; [vm_compute; split; discriminate|]. split; [repeat constructor; discriminate|].
    split; [intros c x E; injection E as <- _; reflexivity|]. split; [repeat (constructor; [apply hlineb_sound; vm_compute; reflexivity|]); constructor|]. split; [apply no_lineb_iff; vm_compute; reflexivity|reflexivity].
  - vm_compute. reflexivity.
  - vm_compute. intuition discriminate.
  - apply never_left. vm_compute. reflexivity.
  - vm_compute. reflexivity.
  - vm_compute. intuition discriminate.
  - apply never_left. vm_compute. reflexivity.
Qed.
Example C81_tunnel_ex : accepting ok_env /\ accepting destroying /\ Forall good_round ex_rounds /\ good_handshake hk /\ tunnel_fits ok_env ex_rounds hk [] /\ tunnel_fits destroying ex_rounds hk [] /\
  ~ In [] tls_quiet /\ first_text tls_quiet tls_first [22; 3; 1; 5; 1; 0] /\ first_word [22; 3; 1; 5; 1; 0] [22; 3; 1; 5; 1; 0] /\ ~ In [22; 3; 1; 5; 1; 0] known_methods /\ Forall traffic tls_rest /\
  length (exchanges ex_rounds) = 5%nat /\ (length (hk_up hk) > 5)%nat /\ (length (hk_down hk) > 5)%nat.
Proof.
  split; [exact ex_accepting|]. split; [exact destroying_accepts|]. split; [exact ex_rounds_good|]. split; [exact hk_good|].
  split; [split; [apply fitsb_sound; vm_compute; reflexivity|split; [apply fitsb_sound; vm_compute; reflexivity|vm_compute; repeat split; discriminate]]|].
  split; [split; [apply fitsb_sound; vm_compute; reflexivity|split; [apply fitsb_sound; vm_compute; reflexivity|vm_compute; repeat split; discriminate]]|].
  split; [vm_compute; intuition discriminate|].
  split; [exists [5; 1], 0, [1; 2; 10; 7]; vm_compute; intuition discriminate|].
  split; [exists [], []; split; [reflexivity|]; split; [constructor|]; split; [|split; [discriminate|reflexivity]]; repeat (constructor; [vm_compute; intuition discriminate|]); constructor|].
  split; [vm_compute; intuition discriminate|].
  split; [|vm_compute; lia]. repeat constructor; eexists; (split; [|(left; reflexivity) || (right; reflexivity)]); vm_compute; discriminate.
Qed.
(** The hypotheses of C81_client_waits: those of C81_tunnel_left_alone and these. *)
Definition hasty : list (side * bytes) := [(SReq, [22; 3]); (SResp, hd [] (hk_down hk)); (SReq, [10]); (SReq, texts [msg1])].
Example C81_waits_ex : Forall (fun x => snd x <> []) hasty /\ hk_down hk = from_server hasty ++ tl (hk_down hk) /\ ~ In 10 (concat (from_server hasty)) /\
  map call_gives hasty = [Some SsDataOther; Some SsData; Some SsDataOther; Some SsDataOther].
Proof. split; [repeat (constructor; [vm_compute; discriminate|]); constructor|]. split; [vm_compute; reflexivity|]. split; [vm_compute; intuition discriminate|reflexivity]. Qed.
Example C81_go_on_ex : Forall good_round (mk_round [(msg1, rsp1)] (cut_by 3 999 (texts [msg1])) (cut_by 5 999 (rtexts [rsp1])) :: ex_rounds) /\
  tunnel_fits ok_env ex_rounds hk (mk_round [(msg1, rsp1)] (cut_by 3 999 (texts [msg1])) (cut_by 5 999 (rtexts [rsp1])) :: ex_rounds).
Proof.
  split; [apply roundsb_sound; vm_compute; reflexivity|].
  split; [apply fitsb_sound; vm_compute; reflexivity|split; [apply fitsb_sound; vm_compute; reflexivity|vm_compute; repeat split; discriminate]].
Qed.

(** * When the server speaks first *)
Definition tunnel_report (l : list op) := let '(r, s) := history ok_env (OpOpen :: handshake_ops hk ++ l) in
  (match r with ROk rs => Some (skipn (length (OpOpen :: handshake_ops hk)) rs) | _ => None end, map fst (s_txs s), reply_body_of 0 (events s), reply_body_of 1 (events s)).
Definition banner : bytes := s2b "SSH-2.0-x" ++ [13; 10].
(** Bytes of the server that come through the tunnel before any of the client are taken for the response to a further request, which is
    made up, and are delivered as its body; what the client sends then is not recognised as tunnelled any more. In the segment of the
    granting response they are delivered as the body of that response, which has none. *)
Theorem C81_server_first_refuted :
  tunnel_report [OpReq (pd_slice tls_first); OpResp (pd_slice banner)] = (Some [Some SsTunnel; Some SsTunnel], [0; 1], [], []) /\
  tunnel_report [OpResp (pd_slice banner); OpReq (pd_slice tls_first)] = (Some [Some SsData; Some SsData], [0; 1; 2], [], banner) /\
  (let s := snd (history ok_env [OpOpen; OpReq (pd_slice (request_text hk_req)); OpResp (pd_slice (head_text hk_rep ++ banner))]) in
   reply_body_of 0 (events s) = banner /\ option_map (fun t => t_prog (x_resp t)) (tx_get 0 (s_txs s)) = Some PComplete).
Proof. split; [|split; [|split]]; vm_compute; reflexivity. Qed.
Print Assumptions C81_server_first_refuted.
