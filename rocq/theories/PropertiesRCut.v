(** Property C88 of properties.jsonl: a response in chunks that the end of the connection cuts off. What is cut off and what is told of it:
    SpecRCut.v. *)
From Coq Require Import List Lia Bool.
From Verif Require Import Base Spec SpecTx SpecMsg SpecResp SpecConnect SpecFlow SpecRCut ModelUtil ModelState ModelTx ModelConn SpecConn ProofsBase ProofsMsg ProofsRMsg ProofsTalk ProofsConnect4 ProofsRCut PropertiesConn PropertiesMsg PropertiesResp PropertiesEnd PropertiesCut.

(** * C88 *)
(** After any conversation, requests are answered, but of the last response, whose body is sent in chunks, only a part of the chunks
    arrives; then the connection is closed. The body callbacks hear the data that arrived, and neither RESPONSE_COMPLETE nor, unless
    flushing is configured, TRANSACTION_COMPLETE runs for it, and its transaction says that it is not complete. With flushing configured
    TRANSACTION_COMPLETE runs once, for this transaction only, and then, with auto-destroy, it is gone. *)
Theorem C88_cut_off_response : forall e before c, accepting e -> Forall good_round before -> good_cut_round c -> cut_round_fits e before c ->
  exists s t es1 es2 es3 es4,
    history e (conversation before ++ cut_round_ops c ++ [OpClose]) = (ROk (all_calls before ++ more (cut_round_ops c) ++ [None]), s) /\
    events s = es1 ++ es2 ++ es3 ++ es4 ++
      (if c_flush (e_cfg e) then [mk_ev HTransactionComplete (N.of_nat (length (exchanges before)) + N.of_nat (length (ct_whole c))) PlNone] else []) /\
    conversation_events (e_cfg e) 0 before es1 /\
    stream_events (e_cfg e) (N.of_nat (length (exchanges before))) (map fst (ct_exchanges c)) es2 /\
    reply_events (N.of_nat (length (exchanges before))) (map snd (ct_whole c)) es3 /\
    cut_reply_events (N.of_nat (length (exchanges before)) + N.of_nat (length (ct_whole c))) c es4 /\
    (forall k m r, nth_error (exchanges before ++ ct_whole c) k = Some (m, r) ->
      if c_auto_destroy (e_cfg e) then tx_get (N.of_nat k) (s_txs s) = None
      else exists t, tx_get (N.of_nat k) (s_txs s) = Some t /\ asked m t /\ answered r t) /\
    asked (ct_message c) t /\ cut_answered c t /\
    tx_get (N.of_nat (length (exchanges before)) + N.of_nat (length (ct_whole c))) (s_txs s) =
      if c_flush (e_cfg e) && c_auto_destroy (e_cfg e) then None else Some t.
Proof. exact cut_round_parsed. Qed.
Print Assumptions C88_cut_off_response.

(** Two exchanges of C56, of whose second response [k] bytes of the coded body arrive. *)
Definition cut_answer (k n : nat) : cut_round :=
  let t := content_text (rp_content rsp2) in
  mk_cut_round [(msg1, rsp1)] msg4 rsp2 (firstn k t) (skipn k t) (cut_by 40 99 (texts [msg1; msg4])) (cut_by n 99 (rtexts [rsp1] ++ head_text rsp2 ++ firstn k t)).
Definition goodcutroundb (c : cut_round) : bool :=
  forallb (fun x => messageb (fst x) && responseb (fst x) (snd x)) (ct_exchanges c) && match rp_content (ct_response c) with Chunked _ _ _ => true | _ => false end &&
  bytes_eqb (content_text (rp_content (ct_response c))) (ct_seen c ++ ct_rest c) &&
  (length (ct_seen c) <? length (coded_text (rp_content (ct_response c))))%nat && bytes_eqb (firstn (length (ct_seen c)) (coded_text (rp_content (ct_response c)))) (ct_seen c) &&
  bytes_eqb (concat (ct_up c)) (texts (map fst (ct_exchanges c))) && forallb (fun x => negb (is_nil x)) (ct_up c) && cleanb (map fst (ct_exchanges c)) (ct_up c) [] &&
  bytes_eqb (concat (ct_down c)) (rtexts (map snd (ct_whole c)) ++ head_text (ct_response c) ++ ct_seen c) && forallb (fun x => negb (is_nil x)) (ct_down c) &&
  rcleanb (map snd (ct_exchanges c)) (ct_down c) (ct_rest c) && apartb (map snd (ct_exchanges c)) (ct_down c) (ct_rest c).
Lemma goodcutroundb_sound c : goodcutroundb c = true -> good_cut_round c.
Proof.
  unfold goodcutroundb. rewrite !andb_true_iff. intros (((((((((((A & B) & C) & D) & E) & F) & G) & H) & I) & J) & K) & L).
  rewrite forallb_forall in A, G, J. apply bytes_eqb_eq in C, E, F, I. apply Nat.ltb_lt in D. split.
  - apply Forall_forall. intros x X. specialize (A x X). apply andb_true_iff in A as [A1 A2]. split; [now apply messageb_sound|now apply responseb_sound].
  - split; [destruct (rp_content (ct_response c)); [discriminate B|eauto]|]. split; [exact C|]. split.
    + exists (skipn (length (ct_seen c)) (coded_text (rp_content (ct_response c)))). split.
      * intro Z. apply (f_equal (@length N)) in Z. rewrite skipn_length in Z. cbn [length] in Z. lia.
      * rewrite <- (firstn_skipn (length (ct_seen c)) (coded_text (rp_content (ct_response c)))) at 1. now rewrite E.
    + split; [exact F|]. split; [intro X; specialize (G _ X); discriminate|]. split; [now apply cleanb_sound|]. split; [exact I|]. split; [intro X; specialize (J _ X); discriminate|].
      split; [now apply rcleanb_sound|now apply apartb_sound].
Qed.
Lemma cut_answer_fits e : accepting e -> fitsb e ex_rounds = true -> (130 <=? c_field_limit (e_cfg e)) && (10 <=? c_max_tx (e_cfg e)) = true ->
  accepting e /\ cut_round_fits e ex_rounds (cut_answer 21 26).
Proof.
  intros A F LM. apply andb_true_iff in LM as [L M]. apply N.leb_le in L, M. split; [exact A|]. apply fitsb_sound in F.
  split; [exact F|]. assert (Le : (length (exchanges ex_rounds) <= 6)%nat) by (vm_compute; lia). cbn [cut_answer ct_whole length]. split; [|split; [lia|destruct (c_auto_destroy _); lia]].
  apply Forall_forall. intros x I.
  assert (B : forallb (fun x => (blen (request_text (m_req (fst x))) <=? 130) && (blen (block_text (trailer_of (m_content (fst x)))) + 2 <=? 130) &&
    (blen (head_text (snd x)) <=? 130) && (blen (block_text (trailer_of (rp_content (snd x)))) + 2 <=? 130)) (ct_exchanges (cut_answer 21 26)) = true) by (vm_compute; reflexivity).
  rewrite forallb_forall in B. specialize (B x I). rewrite !andb_true_iff in B. destruct B as (((B1 & B2) & B3) & B4). apply N.leb_le in B1, B2, B3, B4. split; [|split; [|split]]; lia.
Qed.
Example C88_ex : Forall good_round ex_rounds /\ (forall k, In k [0; 9; 14; 19; 20; 21; 24; 26; 27; 28; 29]%nat -> good_cut_round (cut_answer k 26)) /\
  (forall e, In e [ok_env; destroying; flushing; flushing_destroying] -> accepting e /\ cut_round_fits e ex_rounds (cut_answer 21 26)) /\
  ct_data (cut_answer 26 26) = s2b "0123456789ab" /\ ct_data (cut_answer 20 26) = s2b "0123456789".
Proof.
  split; [exact ex_rounds_good|]. split.
  { intros k I. apply goodcutroundb_sound. revert k I. apply forallb_forall. vm_compute. reflexivity. }
  split; [|split; vm_compute; reflexivity].
  intros e [<- | [<- | [<- | [<- | []]]]]; (apply cut_answer_fits; [|vm_compute; reflexivity|vm_compute; reflexivity]); [exact ex_accepting|exact destroying_accepts|exact flushing_accepts|].
  split; [intros s ev; left; reflexivity|intros; reflexivity].
Qed.

(** * Cut off elsewhere *)
Definition rcut_report (r : response) (k : nat) :=
  let '(rc, s) := history ok_env [OpOpen; OpReq (pd_slice (texts [msg1])); OpResp (pd_slice (firstn k (rtexts [r]))); OpClose] in
  (rc, option_map (fun t => (t_prog (x_resp t), t_elen (x_resp t))) (tx_get 0 (s_txs s)),
   existsb (fun ev => match ev_hook ev with HResponseComplete => true | _ => false end) (events s)).
(** This holds for the chunks only. A response that ends in its status line, in its header block, in the trailer after its chunks or in a
    body of a known length is reported as complete when the connection is closed. *)
Theorem C88_cut_elsewhere_refuted :
  Forall (fun k => rcut_report rsp2 k = (ROk [None; Some SsData; Some SsData; None], Some (PComplete, 0), true)) [10; 20; 44]%nat /\
  Forall (fun k => rcut_report rsp2 k = (ROk [None; Some SsData; Some SsData; None], Some (PComplete, 13), true)) [77; 80; 89]%nat /\
  rcut_report rsp1 (length (rtexts [rsp1]) - 2) = (ROk [None; Some SsData; Some SsData; None], Some (PComplete, 3), true).
Proof. split; [|split]; repeat (constructor; [vm_compute; reflexivity|]); try constructor; vm_compute; reflexivity. Qed.
Print Assumptions C88_cut_elsewhere_refuted.

(** * Closed again *)
(** TRANSACTION_COMPLETE runs once because the connection is closed once. Without auto-destroy the flush leaves the transaction in the
    table as it was, and further closes run the callback for it again; with auto-destroy it does not. *)
Definition closed_again (e : env) (n : nat) :=
  let s := snd (history e (conversation [] ++ cut_round_ops (cut_answer 21 26) ++ repeat OpClose n)) in
  (length (runs_of HTransactionComplete 0 s), length (runs_of HTransactionComplete 1 s)).
Theorem C88_close_again_refuted :
  map (closed_again flushing) [1; 2; 5]%nat = [(1, 1); (1, 2); (1, 5)]%nat /\ map (closed_again flushing_destroying) [1; 2; 5]%nat = [(1, 1); (1, 1); (1, 1)]%nat.
Proof. split; vm_compute; reflexivity. Qed.
Print Assumptions C88_close_again_refuted.
