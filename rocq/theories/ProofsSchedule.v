(** Consequences of the theorem about interleaved conversations, and deciders for its hypotheses. *)
From Verif Require Import Base Spec SpecTx SpecMsg SpecResp SpecWeave ModelUtil ModelParsers ModelHeaders ModelState ModelTx ModelConn SpecConn ProofsBase ProofsParsers ProofsHeaders ProofsTx ProofsConn ProofsCore ProofsLoop ProofsHist ProofsEval ProofsBody ProofsHead ProofsFrame ProofsStream ProofsChunk ProofsMsg ProofsRStream ProofsRHead ProofsRBody ProofsRMsg ProofsTalk ProofsWeave.

(** * Bodies *)
Lemma body_of_filter i es : body_of i es = body_of i (filter of_request es).
Proof.
  induction es as [|ev es IH]; [reflexivity|]. change (ev :: es) with ([ev] ++ es). rewrite body_of_app, IH. cbn [app filter]. destruct (of_request ev) eqn:E; [change (ev :: filter of_request es) with ([ev] ++ filter of_request es); now rewrite body_of_app|].
  rewrite body_of_none; [reflexivity|]. intros x [<- | []]. intro H. unfold of_request in E. rewrite H in E. discriminate.
Qed.
Lemma rbody_of_filter i es : reply_body_of i es = reply_body_of i (filter of_response es).
Proof.
  induction es as [|ev es IH]; [reflexivity|]. change (ev :: es) with ([ev] ++ es). rewrite rbody_of_app, IH. cbn [app filter]. destruct (of_response ev) eqn:E; [change (ev :: filter of_response es) with ([ev] ++ filter of_response es); now rewrite rbody_of_app|].
  rewrite rbody_of_none; [reflexivity|]. intros x [<- | []]. intro H. unfold of_response, of_request in E. rewrite H in E. discriminate.
Qed.
Lemma weave_bodies_exact e xs l : accepting e -> good_schedule xs l -> weave_fits e xs l ->
  exists s, history e (scheduled l) = (ROk (all_more l), s) /\
    forall k m r, nth_error xs k = Some (m, r) -> body_of (N.of_nat k) (events s) = m_body m /\ reply_body_of (N.of_nat k) (events s) = rp_body r.
Proof.
  intros A G F. destruct (weave_parsed e xs l A G F) as (s & H & Se & Re & _). exists s. split; [exact H|]. intros k m r Hk.
  rewrite body_of_filter, rbody_of_filter, (body_of_requests _ _ _ Se), (rbody_of_replies _ _ _ Re). replace (N.to_nat (N.of_nat k - 0)) with k by lia. rewrite !nth_error_map, Hk. replace (0 <=? N.of_nat k) with true by lia. split; reflexivity.
Qed.
(** * Two schedules *)
Lemma weave_alike e xs l l' : accepting e -> c_auto_destroy (e_cfg e) = false -> good_schedule xs l -> weave_fits e xs l -> good_schedule xs l' -> weave_fits e xs l' ->
  exists s s', history e (scheduled l) = (ROk (all_more l), s) /\ history e (scheduled l') = (ROk (all_more l'), s') /\
    forall k m r, nth_error xs k = Some (m, r) -> exists t t', tx_get (N.of_nat k) (s_txs s) = Some t /\ tx_get (N.of_nat k) (s_txs s') = Some t' /\
      asked m t /\ answered r t /\ asked m t' /\ answered r t' /\
      body_of (N.of_nat k) (events s) = body_of (N.of_nat k) (events s') /\ reply_body_of (N.of_nat k) (events s) = reply_body_of (N.of_nat k) (events s').
Proof.
  intros A D G F G' F'. destruct (weave_parsed e xs l A G F) as (s & H & Se & Re & _ & X), (weave_parsed e xs l' A G' F') as (s' & H' & Se' & Re' & _ & X').
  exists s, s'. split; [exact H|]. split; [exact H'|]. intros k m r Hk. specialize (X k m r Hk). specialize (X' k m r Hk). rewrite D in X, X'. destruct X as (t & T & X1 & X2), X' as (t' & T' & X1' & X2').
  exists t, t'. do 6 (split; [assumption|]). rewrite (body_of_filter _ (events s)), (body_of_filter _ (events s')), (rbody_of_filter _ (events s)), (rbody_of_filter _ (events s')).
  rewrite (body_of_requests _ _ _ Se), (body_of_requests _ _ _ Se'), (rbody_of_replies _ _ _ Re), (rbody_of_replies _ _ _ Re'). split; reflexivity.
Qed.

(** * Deciders *)
Definition arrivedb (ms : list message) (n : nat) (B : bytes) : bool :=
  Nat.leb n (length ms) && (bytes_eqb B (texts (firstn n ms)) ||
    match nth_error ms n with Some m => Nat.leb (length (texts (firstn n ms)) + length (request_line_text (m_req m))) (length B) | None => false end).
Lemma arrivedb_sound ms n B : arrivedb ms n B = true -> arrived ms n B.
Proof.
  unfold arrivedb, arrived. rewrite andb_true_iff, orb_true_iff. intros [H1 H2]. split; [now apply Nat.leb_le|]. destruct H2 as [H2 | H2]; [left; now apply bytes_eqb_eq|right]. destruct (nth_error ms n) as [m|]; [|discriminate]. exists m. split; [reflexivity|now apply Nat.leb_le].
Qed.
Definition settledb (rs : list response) (n : nat) (B : bytes) : bool :=
  Nat.leb n (length rs) && (bytes_eqb B (rtexts (firstn n rs)) ||
    match nth_error rs n with Some r => Nat.leb (length (rtexts (firstn n rs)) + length (status_line_text r)) (length B) | None => false end).
Lemma settledb_sound rs n B : settledb rs n B = true -> settled rs n B.
Proof.
  unfold settledb, settled. rewrite andb_true_iff, orb_true_iff. intros [H1 H2]. split; [now apply Nat.leb_le|]. destruct H2 as [H2 | H2]; [left; now apply bytes_eqb_eq|right]. destruct (nth_error rs n) as [m|]; [|discriminate]. exists m. split; [reflexivity|now apply Nat.leb_le].
Qed.
Fixpoint heads {A} (l : list A) : list (list A * list A) := ([], l) :: match l with [] => [] | x :: r => map (fun p => (x :: fst p, snd p)) (heads r) end.
Lemma heads_in {A} (a b : list A) : In (a, b) (heads (a ++ b)).
Proof. induction a as [|x a IH]; [destruct b; now left|]. cbn [app heads]. right. apply in_map_iff. exists (a, b). split; [reflexivity|exact IH]. Qed.
Definition causalb (xs : list (message * response)) (l : schedule) : bool :=
  forallb (fun p => match snd p with
    | (SResp, c) :: _ => existsb (fun n => arrivedb (map fst xs) n (concat (ups (fst p))) && Nat.leb (length (concat (downs (fst p)) ++ c)) (length (rtexts (firstn n (map snd xs))))) (seq 0 (S (length xs)))
    | _ => true end) (heads l).
Lemma causalb_sound xs l : causalb xs l = true -> causal xs l.
Proof.
  intros H a c b E. unfold causalb in H. rewrite forallb_forall in H. specialize (H (a, (SResp, c) :: b)). rewrite E in H. specialize (H (heads_in a _)). cbn [fst snd] in H. apply existsb_exists in H as (n & _ & H). apply andb_true_iff in H as [H1 H2].
  exists n. split; [now apply arrivedb_sound|now apply Nat.leb_le].
Qed.
Definition scheduleb (xs : list (message * response)) (l : schedule) : bool :=
  forallb (fun x => messageb (fst x) && responseb (fst x) (snd x)) xs &&
  bytes_eqb (concat (ups l)) (texts (map fst xs)) && cleanb (map fst xs) (ups l) [] &&
  bytes_eqb (concat (downs l)) (rtexts (map snd xs)) && rcleanb (map snd xs) (downs l) [] && apartb (map snd xs) (downs l) [] &&
  forallb (fun x => negb (is_nil (snd x))) l && causalb xs l.
Lemma scheduleb_sound xs l : scheduleb xs l = true -> good_schedule xs l.
Proof.
  unfold scheduleb. rewrite !andb_true_iff. intros [[[[[[[H1 H2] H3] H4] H5] H6] H7] H8]. rewrite forallb_forall in H1, H7.
  split; [apply Forall_forall; intros x Hx; specialize (H1 x Hx); apply andb_true_iff in H1 as [H1 H1']; split; [now apply messageb_sound|now apply responseb_sound]|].
  split; [now apply bytes_eqb_eq|]. split; [now apply cleanb_sound|]. split; [now apply bytes_eqb_eq|]. split; [now apply rcleanb_sound|]. split; [now apply apartb_sound|].
  split; [intros x Hx E; specialize (H7 x Hx); rewrite E in H7; discriminate|now apply causalb_sound].
Qed.
Definition weave_fitsb (e : env) (xs : list (message * response)) (l : schedule) : bool :=
  forallb (fun x => (blen (request_text (m_req (fst x))) <=? c_field_limit (e_cfg e)) && (blen (block_text (trailer_of (m_content (fst x)))) + 2 <=? c_field_limit (e_cfg e)) &&
                    (blen (head_text (snd x)) <=? c_field_limit (e_cfg e)) && (blen (block_text (trailer_of (rp_content (snd x)))) + 2 <=? c_field_limit (e_cfg e))) xs &&
  (N.of_nat (length xs) <? 2 ^ 64) &&
  (if c_auto_destroy (e_cfg e) then
     forallb (fun p => match snd p with
       | (SReq, c) :: _ => existsb (fun n => settledb (map snd xs) n (concat (downs (fst p))) &&
           existsb (fun k => Nat.leb (length (concat (ups (fst p)) ++ c)) (length (texts (firstn (n + k) (map fst xs)))) && (N.of_nat k <=? c_max_tx (e_cfg e))) (seq 0 (S (length xs)))) (seq 0 (S (length xs)))
       | _ => true end) (heads l)
   else N.of_nat (length xs) <=? c_max_tx (e_cfg e)).
Lemma weave_fitsb_sound e xs l : weave_fitsb e xs l = true -> weave_fits e xs l.
Proof.
  unfold weave_fitsb, weave_fits. intros H. apply andb_prop in H. destruct H as [H H3]. apply andb_prop in H. destruct H as [H1 H2]. split; [|split].
  - apply Forall_forall. intros x Hx. pose proof (proj1 (forallb_forall _ _) H1 x Hx) as H. apply andb_prop in H. destruct H as [H H7]. apply andb_prop in H. destruct H as [H H6].
    apply andb_prop in H. destruct H as [H4 H5]. repeat split; now apply N.leb_le.
  - now apply N.ltb_lt.
  - destruct (c_auto_destroy (e_cfg e)); [|now apply N.leb_le]. intros a c b E. rewrite forallb_forall in H3. specialize (H3 (a, (SReq, c) :: b)). rewrite E in H3. specialize (H3 (heads_in a _)). cbn [fst snd] in H3.
    apply existsb_exists in H3 as (n & _ & H). apply andb_true_iff in H as [H4 H5]. apply existsb_exists in H5 as (k & _ & H5). apply andb_true_iff in H5 as [H5 H6].
    exists n, k. split; [now apply settledb_sound|]. split; [now apply Nat.leb_le|now apply N.leb_le].
Qed.
