(** Property C87 of properties.jsonl: a request that the end of the connection cuts off. What is cut off and what is told of it: SpecCut.v. *)
From Coq Require Import List Lia Bool.
From Verif Require Import Base Spec SpecTx SpecMsg SpecResp SpecConnect SpecCut ModelUtil ModelState ModelTx ModelConn SpecConn ProofsBase ProofsMsg ProofsRMsg ProofsTalk ProofsConnect4 ProofsCut PropertiesConn PropertiesMsg PropertiesResp PropertiesEnd.

(** * C87 *)
(** After any conversation, any number of requests arrive that are not answered, and of the last of them only a part of the body, whether
    its length is known or it comes in chunks; then the connection is closed. The body callbacks hear the data that arrived, and neither
    that the body has ended nor that the request is complete, and its transaction says so. With flushing configured TRANSACTION_COMPLETE
    runs once for each of the unanswered requests, also for this one, and then, with auto-destroy, they are gone. *)
Theorem C87_cut_off_request : forall e before q, accepting e -> Forall good_round before -> good_cut q -> cut_fits e before q ->
  exists s t es1 es2 es3 is,
    history e (conversation before ++ reqs (cu_up q) ++ [OpClose]) = (ROk (all_calls before ++ more (reqs (cu_up q)) ++ [None]), s) /\
    events s = es1 ++ es2 ++ es3 ++ map (fun i => mk_ev HTransactionComplete i PlNone) is /\
    conversation_events (e_cfg e) 0 before es1 /\
    stream_events (e_cfg e) (N.of_nat (length (exchanges before))) (cu_whole q) es2 /\
    cut_events (e_cfg e) (N.of_nat (length (exchanges before)) + N.of_nat (length (cu_whole q))) q es3 /\
    (if c_flush (e_cfg e)
     then NoDup is /\ (forall j, In j is <-> N.of_nat (length (exchanges before)) <= j <= N.of_nat (length (exchanges before)) + N.of_nat (length (cu_whole q)))
     else is = []) /\
    (forall k m r, nth_error (exchanges before) k = Some (m, r) ->
      if c_auto_destroy (e_cfg e) then tx_get (0 + N.of_nat k) (s_txs s) = None
      else exists t, tx_get (0 + N.of_nat k) (s_txs s) = Some t /\ asked m t /\ answered r t) /\
    cut_asked q t /\
    (if c_flush (e_cfg e) && c_auto_destroy (e_cfg e)
     then forall j, N.of_nat (length (exchanges before)) <= j <= N.of_nat (length (exchanges before)) + N.of_nat (length (cu_whole q)) -> tx_get j (s_txs s) = None
     else tx_get (N.of_nat (length (exchanges before)) + N.of_nat (length (cu_whole q))) (s_txs s) = Some t /\
       forall k m, nth_error (cu_whole q) k = Some m ->
         exists t, tx_get (N.of_nat (length (exchanges before)) + N.of_nat k) (s_txs s) = Some t /\ holds m t).
Proof. exact cut_parsed. Qed.
Print Assumptions C87_cut_off_request.

(** Two whole requests and the one of C51 that comes in chunks, of which [k] bytes of the coded body arrive; and the second request of C51
    of which 2 bytes of the body arrive. *)
Definition cut_chunked (k n : nat) : cut_request :=
  let c := m_content msg4 in
  mk_cut_request [msg1; msg2] msg4 (firstn k (content_text c)) (skipn k (content_text c)) (cut_by n 200 (texts [msg1; msg2] ++ request_text (m_req msg4) ++ firstn k (content_text c))).
Definition cut_plain : cut_request := mk_cut_request [] msg2 (s2b "he") (s2b "llo") (cut_by 10 200 (request_text (m_req msg2) ++ s2b "he")).
Definition goodcutb (q : cut_request) : bool :=
  forallb messageb (cu_whole q ++ [cu_message q]) && bytes_eqb (content_text (m_content (cu_message q))) (cu_seen q ++ cu_rest q) &&
  (length (cu_seen q) <? length (coded_text (m_content (cu_message q))))%nat && bytes_eqb (firstn (length (cu_seen q)) (coded_text (m_content (cu_message q)))) (cu_seen q) &&
  bytes_eqb (concat (cu_up q)) (texts (cu_whole q) ++ request_text (m_req (cu_message q)) ++ cu_seen q) && forallb (fun c => negb (is_nil c)) (cu_up q) && cleanb (cu_whole q ++ [cu_message q]) (cu_up q) (cu_rest q).
Lemma goodcutb_sound q : goodcutb q = true -> good_cut q.
Proof.
  unfold goodcutb. rewrite !andb_true_iff. intros ((((((A & B) & C) & D) & E) & F) & G). apply messagesb_sound, Forall_app in A as [A1 A2]. apply bytes_eqb_eq in B, D, E. apply Nat.ltb_lt in C. rewrite forallb_forall in F.
  split; [exact A1|]. split; [now inversion_clear A2|]. split; [exact B|]. split.
  - exists (skipn (length (cu_seen q)) (coded_text (m_content (cu_message q)))). split.
    + intro Z. apply (f_equal (@length N)) in Z. rewrite skipn_length in Z. cbn [length] in Z. lia.
    + rewrite <- (firstn_skipn (length (cu_seen q)) (coded_text (m_content (cu_message q)))) at 1. now rewrite D.
  - split; [exact E|]. split; [intro I; specialize (F _ I); discriminate|]. apply cleanb_sound. exact G.
Qed.
Definition flushing_destroying : env := ex_env (set_c_flush true (set_c_auto_destroy true config_default)) (fun _ _ => SOk).
Lemma cut_ex_fits e : accepting e -> fitsb e ex_rounds = true -> (100 <=? c_field_limit (e_cfg e)) && (10 <=? c_max_tx (e_cfg e)) = true ->
  accepting e /\ cut_fits e ex_rounds (cut_chunked 21 26) /\ cut_fits e ex_rounds cut_plain.
Proof.
  intros A F LM. apply andb_true_iff in LM as [L M]. apply N.leb_le in L, M. split; [exact A|]. apply fitsb_sound in F.
  assert (H : forall q, forallb (fun m => (blen (request_text (m_req m)) <=? 100) && (blen (block_text (trailer_of (m_content m))) + 2 <=? 100)) (cu_whole q ++ [cu_message q]) = true -> (length (cu_whole q) <= 3)%nat -> (length (exchanges ex_rounds) <= 6)%nat -> cut_fits e ex_rounds q).
  { intros q B Lw Le. split; [exact F|]. split; [|split; [lia|destruct (c_auto_destroy _); lia]]. apply Forall_forall. intros m I. rewrite forallb_forall in B. specialize (B m I). apply andb_true_iff in B as [B1 B2]. apply N.leb_le in B1, B2. split; lia. }
  split; (apply H; [vm_compute; reflexivity|cbn; lia|vm_compute; lia]).
Qed.
Example C87_ex : Forall good_round ex_rounds /\ (forall k, In k [0; 9; 14; 19; 21; 24; 26; 29]%nat -> good_cut (cut_chunked k 26)) /\ good_cut cut_plain /\
  (forall e, In e [ok_env; destroying; flushing; flushing_destroying] -> accepting e /\ cut_fits e ex_rounds (cut_chunked 21 26) /\ cut_fits e ex_rounds cut_plain) /\
  cu_data (cut_chunked 26 26) = s2b "0123456789ab" /\ cu_data cut_plain = s2b "he".
Proof.
  split; [exact ex_rounds_good|]. split.
  { intros k I. apply goodcutb_sound. revert k I. apply forallb_forall. vm_compute. reflexivity. }
  split; [apply goodcutb_sound; vm_compute; reflexivity|]. split; [|split; vm_compute; reflexivity].
  intros e [<- | [<- | [<- | [<- | []]]]]; (apply cut_ex_fits; [|vm_compute; reflexivity|vm_compute; reflexivity]); [exact ex_accepting|exact destroying_accepts|exact flushing_accepts|].
  split; [intros s ev; left; reflexivity|intros; reflexivity].
Qed.

(** * Cut off elsewhere *)
Definition cut_report (m : message) (k : nat) := let '(rc, s) := history ok_env [OpOpen; OpReq (pd_slice (firstn k (texts [m]))); OpClose] in
  (rc, option_map (fun t => t_prog (x_req t)) (tx_get 0 (s_txs s)), existsb (fun ev => match ev_hook ev with HRequestComplete => true | _ => false end) (events s)).
(** This holds for the body only. A request that ends in its request line, in its header block or in the trailer after its chunks is
    reported as complete when the connection is closed. *)
Theorem C87_cut_elsewhere_refuted :
  Forall (fun k => cut_report msg2 k = (ROk [None; Some SsData; None], Some PComplete, true)) [1; 5; 12; 20; 40]%nat /\
  Forall (fun k => cut_report msg4 k = (ROk [None; Some SsData; None], Some PComplete, true)) [115; 117]%nat.
Proof. split; repeat (constructor; [vm_compute; reflexivity|]); constructor. Qed.
Print Assumptions C87_cut_elsewhere_refuted.
