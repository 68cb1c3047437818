(** Property C89 of properties.jsonl: a response that ends, with the connection, before the length that it announces. What ends where:
    SpecRShort.v. *)
From Coq Require Import List Lia Bool.
From Verif Require Import Base Spec SpecTx SpecMsg SpecResp SpecConnect SpecRCut SpecRShort ModelUtil ModelState ModelTx ModelConn SpecConn ProofsBase ProofsMsg ProofsRMsg ProofsTalk ProofsConnect4 ProofsRCut ProofsRShort PropertiesConn PropertiesMsg PropertiesResp PropertiesEnd PropertiesCut PropertiesRCut.

(** * C89 *)
(** After any conversation, requests are answered, but of the body of the last response, whose length is announced, only a part arrives;
    then the connection is closed. The callbacks and the transaction are those of a whole response with that part as its body:
    RESPONSE_COMPLETE and TRANSACTION_COMPLETE run once, with flushing configured or without, and with auto-destroy the transaction is gone. *)
Theorem C89_short_response : forall e before c, accepting e -> Forall good_round before -> good_short_round c -> cut_round_fits e before c ->
  exists s es1 es2 es3,
    history e (conversation before ++ cut_round_ops c ++ [OpClose]) = (ROk (all_calls before ++ more (cut_round_ops c) ++ [None]), s) /\
    events s = es1 ++ es2 ++ es3 /\
    conversation_events (e_cfg e) 0 before es1 /\
    stream_events (e_cfg e) (N.of_nat (length (exchanges before))) (map fst (ct_exchanges c)) es2 /\
    reply_events (N.of_nat (length (exchanges before))) (map snd (ct_whole c) ++ [ct_short c]) es3 /\
    (forall k m r, nth_error (exchanges before ++ ct_whole c ++ [(ct_message c, ct_short c)]) k = Some (m, r) ->
      if c_auto_destroy (e_cfg e) then tx_get (N.of_nat k) (s_txs s) = None
      else exists t, tx_get (N.of_nat k) (s_txs s) = Some t /\ asked m t /\ answered r t).
Proof. exact short_round_parsed. Qed.
Print Assumptions C89_short_response.

(** Two exchanges of C56, of whose second response, with a body of five bytes, [k] bytes of the body arrive. *)
Definition short_answer (k n : nat) : cut_round :=
  mk_cut_round [(msg4, rsp2)] msg1 rsp1 (firstn k (s2b "world")) (skipn k (s2b "world")) (cut_by 40 99 (texts [msg4; msg1])) (cut_by n 99 (rtexts [rsp2] ++ head_text rsp1 ++ firstn k (s2b "world"))).
Definition goodshortb (c : cut_round) : bool :=
  forallb (fun x => messageb (fst x) && responseb (fst x) (snd x)) (ct_exchanges c) &&
  match rp_content (ct_response c) with Plain b => bytes_eqb b (ct_seen c ++ ct_rest c) | _ => false end && negb (is_nil (ct_rest c)) &&
  bytes_eqb (concat (ct_up c)) (texts (map fst (ct_exchanges c))) && forallb (fun x => negb (is_nil x)) (ct_up c) && cleanb (map fst (ct_exchanges c)) (ct_up c) [] &&
  bytes_eqb (concat (ct_down c)) (rtexts (map snd (ct_whole c)) ++ head_text (ct_response c) ++ ct_seen c) && forallb (fun x => negb (is_nil x)) (ct_down c) &&
  rcleanb (map snd (ct_exchanges c)) (ct_down c) (ct_rest c) && apartb (map snd (ct_exchanges c)) (ct_down c) (ct_rest c).
Lemma goodshortb_sound c : goodshortb c = true -> good_short_round c.
Proof.
  unfold goodshortb. rewrite !andb_true_iff. intros (((((((((A & B) & C) & F) & G) & H) & I) & J) & K) & L).
  rewrite forallb_forall in A, G, J. apply bytes_eqb_eq in F, I. split.
  - apply Forall_forall. intros x X. specialize (A x X). apply andb_true_iff in A as [A1 A2]. split; [now apply messageb_sound|now apply responseb_sound].
  - split; [destruct (rp_content (ct_response c)); [apply bytes_eqb_eq in B; now rewrite B|discriminate B]|]. split; [intro Z; rewrite Z in C; discriminate C|].
    split; [exact F|]. split; [intro X; specialize (G _ X); discriminate|]. split; [now apply cleanb_sound|]. split; [exact I|]. split; [intro X; specialize (J _ X); discriminate|].
    split; [now apply rcleanb_sound|now apply apartb_sound].
Qed.
Lemma short_answer_fits e : accepting e -> fitsb e ex_rounds = true -> (130 <=? c_field_limit (e_cfg e)) && (10 <=? c_max_tx (e_cfg e)) = true ->
  accepting e /\ cut_round_fits e ex_rounds (short_answer 2 18).
Proof.
  intros A F LM. apply andb_true_iff in LM as [L M]. apply N.leb_le in L, M. split; [exact A|]. apply fitsb_sound in F.
  split; [exact F|]. assert (Le : (length (exchanges ex_rounds) <= 6)%nat) by (vm_compute; lia). cbn [short_answer ct_whole length]. split; [|split; [lia|destruct (c_auto_destroy _); lia]].
  apply Forall_forall. intros x I.
  assert (B : forallb (fun x => (blen (request_text (m_req (fst x))) <=? 130) && (blen (block_text (trailer_of (m_content (fst x)))) + 2 <=? 130) &&
    (blen (head_text (snd x)) <=? 130) && (blen (block_text (trailer_of (rp_content (snd x)))) + 2 <=? 130)) (ct_exchanges (short_answer 2 18)) = true) by (vm_compute; reflexivity).
  rewrite forallb_forall in B. specialize (B x I). rewrite !andb_true_iff in B. destruct B as (((B1 & B2) & B3) & B4). apply N.leb_le in B1, B2, B3, B4. split; [|split; [|split]]; lia.
Qed.
Example C89_ex : Forall good_round ex_rounds /\ (forall k, In k [0; 1; 2; 3; 4]%nat -> good_short_round (short_answer k 18)) /\
  (forall e, In e [ok_env; destroying; flushing; flushing_destroying] -> accepting e /\ cut_round_fits e ex_rounds (short_answer 2 18)) /\
  rp_body (ct_short (short_answer 2 18)) = s2b "wo".
Proof.
  split; [exact ex_rounds_good|]. split.
  { intros k I. apply goodshortb_sound. revert k I. apply forallb_forall. vm_compute. reflexivity. }
  split; [|vm_compute; reflexivity].
  intros e [<- | [<- | [<- | [<- | []]]]]; (apply short_answer_fits; [|vm_compute; reflexivity|vm_compute; reflexivity]); [exact ex_accepting|exact destroying_accepts|exact flushing_accepts|].
  split; [intros s ev; left; reflexivity|intros; reflexivity].
Qed.
