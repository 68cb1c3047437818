(** Consequences of the theorem about conversations, and deciders for its hypotheses. *)
From Verif Require Import Base Spec SpecTx SpecMsg SpecResp ModelUtil ModelParsers ModelHeaders ModelState ModelTx ModelConn SpecConn ProofsBase ProofsParsers ProofsHeaders ProofsTx ProofsConn ProofsCore ProofsLoop ProofsHist ProofsEval ProofsBody ProofsHead ProofsFrame ProofsStream ProofsChunk ProofsMsg ProofsRStream ProofsRHead ProofsRBody ProofsRMsg.

(** * Bodies *)
Lemma rbody_of_app i a b : reply_body_of i (a ++ b) = reply_body_of i a ++ reply_body_of i b. Proof. apply flat_map_app. Qed.
Lemma rbody_of_none i l : (forall x, In x l -> ev_hook x <> HResponseBody) -> reply_body_of i l = [].
Proof. induction l as [|x l IH]; intro H; [reflexivity|]. unfold reply_body_of in *. cbn [flat_map]. rewrite IH by (intros y Hy; apply H; now right). specialize (H x (or_introl eq_refl)). destruct (ev_hook x); try reflexivity. congruence. Qed.
Lemma rbody_of_pieces i j bs : reply_body_of j (flat_map (fun b => reply_piece i (PlData b)) bs) = if i =? j then concat bs else [].
Proof.
  induction bs as [|b bs IH]; [destruct (i =? j); reflexivity|]. cbn [flat_map]. rewrite rbody_of_app, IH. unfold reply_body_of at 1. cbn. destruct (i =? j); cbn [concat]; [now rewrite app_nil_r|reflexivity].
Qed.
Lemma rbody_of_map h i j hs : h <> HResponseBody -> reply_body_of j (map (fun x => mk_ev h i (PlData x)) hs) = [].
Proof. intro H. apply rbody_of_none. intros x Hx. apply in_map_iff in Hx as (y & <- & _). exact H. Qed.
Lemma rbody_of_trailer i j c ts : reply_trailer_events i c ts -> reply_body_of j ts = [].
Proof. destruct c as [b|cs la tr]; [intros ->; reflexivity|]. intros (hs & _ & ->). rewrite rbody_of_app, rbody_of_map by discriminate. reflexivity. Qed.
Lemma rbody_of_response i j r es : response_events i r es -> reply_body_of j es = if i =? j then rp_body r else [].
Proof.
  intros (hs & bs & ts & _ & Eb & _ & Ht & ->). rewrite !rbody_of_app, rbody_of_map, rbody_of_pieces, (rbody_of_trailer _ _ _ _ Ht), Eb by discriminate. cbn. rewrite app_nil_r. reflexivity.
Qed.
Lemma rbody_of_message {cfg} i j m es : message_events cfg i m es -> reply_body_of j es = [].
Proof.
  intros (ps & hs & bs & ts & n & _ & _ & _ & _ & Ht & _ & ->). apply rbody_of_none. intros x Hx. rewrite !in_app_iff in Hx.
  destruct Hx as [Hx | [Hx | [Hx | [Hx | [Hx | [Hx | [Hx | [Hx | Hx]]]]]]]].
  - destruct Hx as [<- | []]; discriminate.
  - apply in_map_iff in Hx as (y & <- & _). discriminate.
  - destruct Hx as [<- | [<- | []]]; discriminate.
  - apply in_map_iff in Hx as (y & <- & _). discriminate.
  - destruct Hx as [<- | []]; discriminate.
  - apply in_flat_map in Hx as (y & _ & [<- | [<- | []]]); discriminate.
  - destruct (m_content m) as [b|cs la tr]; [rewrite Ht in Hx; destruct Hx|]. destruct Ht as (gs & _ & ->). apply in_app_or in Hx as [Hx | [<- | []]]; [|discriminate]. apply in_map_iff in Hx as (y & <- & _). discriminate.
  - apply in_concat in Hx as (y & Hy & Hx). apply repeat_spec in Hy. subst y. destruct Hx as [<- | [<- | []]]; discriminate.
  - destruct Hx as [<- | []]; discriminate.
Qed.
Lemma rbody_of_stream {cfg} i ms es : stream_events cfg i ms es -> forall j, reply_body_of j es = [].
Proof. induction 1 as [|i m ms es es' H _ IH]; intro j; [reflexivity|]. now rewrite rbody_of_app, (rbody_of_message _ _ _ _ H), IH. Qed.
Lemma rbody_of_replies i rs es : reply_events i rs es -> forall j, reply_body_of j es = if i <=? j then match nth_error rs (N.to_nat (j - i)) with Some r => rp_body r | None => [] end else [].
Proof.
  induction 1 as [i|i r rs es es' H _ IH]; intro j; [destruct (i <=? j); [|reflexivity]; now destruct (N.to_nat _)|].
  rewrite rbody_of_app, (rbody_of_response _ _ _ _ H), IH. destruct (i =? j) eqn:E1.
  - replace (i <=? j) with true by lia. replace (i + 1 <=? j) with false by lia. replace (N.to_nat (j - i)) with 0%nat by lia. cbn. apply app_nil_r.
  - destruct (i <=? j) eqn:E2; [replace (i + 1 <=? j) with true by lia|replace (i + 1 <=? j) with false by lia; reflexivity].
    replace (N.to_nat (j - i)) with (S (N.to_nat (j - (i + 1)))) by lia. reflexivity.
Qed.
Lemma body_of_response i j r es : response_events i r es -> body_of j es = [].
Proof.
  intros (hs & bs & ts & _ & _ & _ & Ht & ->). apply body_of_none. intros x Hx. rewrite !in_app_iff in Hx. destruct Hx as [Hx | [Hx | [Hx | [Hx | [Hx | Hx]]]]].
  - destruct Hx as [<- | [<- | []]]; discriminate.
  - apply in_map_iff in Hx as (y & <- & _). discriminate.
  - destruct Hx as [<- | []]; discriminate.
  - apply in_flat_map in Hx as (y & _ & [<- | [<- | []]]); discriminate.
  - destruct (rp_content r) as [b|cs la tr]; [rewrite Ht in Hx; destruct Hx|]. destruct Ht as (gs & _ & ->). apply in_app_or in Hx as [Hx | [<- | []]]; [|discriminate]. apply in_map_iff in Hx as (y & <- & _). discriminate.
  - destruct Hx as [<- | [<- | []]]; discriminate.
Qed.
Lemma body_of_replies i rs es : reply_events i rs es -> forall j, body_of j es = [].
Proof. induction 1 as [|i r rs es es' H _ IH]; intro j; [reflexivity|]. now rewrite body_of_app, (body_of_response _ _ _ _ H), IH. Qed.
Lemma body_of_requests {cfg} i ms es : stream_events cfg i ms es -> forall j, body_of j es = if i <=? j then match nth_error ms (N.to_nat (j - i)) with Some m => m_body m | None => [] end else [].
Proof.
  induction 1 as [i|i m ms es es' H _ IH]; intro j; [destruct (i <=? j); [|reflexivity]; now destruct (N.to_nat _)|].
  rewrite body_of_app, (body_of_message _ _ _ _ H), IH. destruct (i =? j) eqn:E1.
  - replace (i <=? j) with true by lia. replace (i + 1 <=? j) with false by lia. replace (N.to_nat (j - i)) with 0%nat by lia. cbn. apply app_nil_r.
  - destruct (i <=? j) eqn:E2; [replace (i + 1 <=? j) with true by lia|replace (i + 1 <=? j) with false by lia; reflexivity].
    replace (N.to_nat (j - i)) with (S (N.to_nat (j - (i + 1)))) by lia. reflexivity.
Qed.
Lemma talk_bodies {cfg} i rds es : conversation_events cfg i rds es ->
  forall j, (j < i -> body_of j es = [] /\ reply_body_of j es = []) /\ (forall m r, i <= j -> nth_error (exchanges rds) (N.to_nat (j - i)) = Some (m, r) -> body_of j es = m_body m /\ reply_body_of j es = rp_body r).
Proof.
  induction 1 as [i|i rd rds es1 es2 es3 H1 H2 _ IH]; intro j; [split; [split; reflexivity|intros m r _; now destruct (N.to_nat _)]|].
  destruct (IH j) as [IHa IHb]. clear IH. rewrite !body_of_app, !rbody_of_app, (rbody_of_stream _ _ _ H1), (body_of_replies _ _ _ H2), (body_of_requests _ _ _ H1), (rbody_of_replies _ _ _ H2). split.
  - intro L. destruct IHa as [-> ->]; [lia|]. replace (i <=? j) with false by lia. split; reflexivity.
  - intros m r L E. replace (i <=? j) with true by lia. unfold exchanges in E. cbn [map concat] in E. fold (exchanges rds) in E.
    assert (Sel : forall A (f : message * response -> A) k, nth_error (map f (rd_exchanges rd)) k = option_map f (nth_error (rd_exchanges rd) k)).
    { intros A f k. generalize (rd_exchanges rd). induction k as [|k IHk]; intros [|x l]; try reflexivity. cbn [map nth_error]. apply IHk. }
    unfold rd_asked, rd_answers. rewrite !Sel. clear Sel. destruct (Nat.lt_ge_cases (N.to_nat (j - i)) (length (rd_exchanges rd))) as [Lk | Lk].
    + rewrite nth_error_app1 in E by exact Lk. rewrite E. cbn [option_map fst snd]. destruct IHa as [-> ->]; [lia|]. cbn [app]. rewrite !app_nil_r. split; reflexivity.
    + rewrite nth_error_app2 in E by exact Lk. rewrite (proj2 (nth_error_None _ _) Lk). cbn [option_map app]. apply IHb; [lia|]. rewrite <- E. f_equal. lia.
Qed.
Lemma talk_bodies_exact e rds : accepting e -> Forall good_round rds -> talk_fits e rds ->
  exists s, history e (conversation rds) = (ROk (all_calls rds), s) /\
    forall k m r, nth_error (exchanges rds) k = Some (m, r) -> body_of (N.of_nat k) (events s) = m_body m /\ reply_body_of (N.of_nat k) (events s) = rp_body r.
Proof.
  intros A G F. destruct (talk_parsed e rds A G F) as (s & H & Ce & _). exists s. split; [exact H|]. intros k m r Hk. apply (proj2 (talk_bodies _ _ _ Ce (N.of_nat k))); [lia|]. rewrite <- Hk. f_equal. lia.
Qed.
(** * Header tables *)
Lemma talk_headers e rds rds' : accepting e -> c_auto_destroy (e_cfg e) = false -> Forall good_round rds -> talk_fits e rds -> Forall good_round rds' -> talk_fits e rds' -> exchanges rds = exchanges rds' ->
  exists s s', history e (conversation rds) = (ROk (all_calls rds), s) /\ history e (conversation rds') = (ROk (all_calls rds'), s') /\
    forall k m r, nth_error (exchanges rds) k = Some (m, r) -> exists t t', tx_get (N.of_nat k) (s_txs s) = Some t /\ tx_get (N.of_nat k) (s_txs s') = Some t' /\
      map view (t_headers (x_resp t)) = map view (t_headers (x_resp t')) /\ map view (t_headers (x_resp t)) = merged_table (map kv_of (rp_lines r ++ trailer_of (rp_content r))) /\
      map view (t_headers (x_req t)) = map view (t_headers (x_req t')) /\ map view (t_headers (x_req t)) = merged_table (map kv_of (rq_lines (m_req m) ++ trailer_of (m_content m))).
Proof.
  intros A D G F G' F' E. destruct (talk_parsed e rds A G F) as (s & H & _ & X), (talk_parsed e rds' A G' F') as (s' & H' & _ & X'). exists s, s'. split; [exact H|]. split; [exact H'|].
  intros k m r Hk. specialize (X k m r Hk). rewrite E in Hk. specialize (X' k m r Hk). rewrite D in X, X'. destruct X as (t & T1 & [A1 A2 A3 A4 A5 A6 A7 A8 A9] & [B1 B2 B3 B4 B5 B6 B7 B8]), X' as (t' & T1' & [A1' A2' A3' A4' A5' A6' A7' A8' A9'] & [B1' B2' B3' B4' B5' B6' B7' B8']).
  exists t, t'. repeat split; congruence.
Qed.

(** * Deciders *)
Definition no_lineb (k : string) (ls : list hline) : bool := match find (namedb k) ls with Some _ => false | None => true end.
Lemma no_lineb_iff k ls : no_lineb k ls = true <-> no_line k ls.
Proof.
  unfold no_lineb. pose proof (find_first k ls) as F. destruct (find (namedb k) ls) as [l|]; [|tauto]. split; [discriminate|]. intro H. exfalso. exact (first_not_none _ _ _ F H).
Qed.
Definition bodilessb (m : message) (r : response) : bool :=
  bytes_eqb (rq_method (m_req m)) (s2b "HEAD") || (((rp_status r =? 204) || (rp_status r =? 304)) && no_lineb "content-length" (rp_lines r) && no_lineb "transfer-encoding" (rp_lines r)).
Lemma bodilessb_iff m r : bodilessb m r = true <-> bodiless m r.
Proof. unfold bodilessb, bodiless. rewrite orb_true_iff, !andb_true_iff, orb_true_iff, bytes_eqb_eq, !N.eqb_eq, !no_lineb_iff. tauto. Qed.
Definition delimitedb (ls : list hline) (c : content) : bool :=
  framedb ls c && match c with Plain _ => negb (no_lineb "content-length" ls) | _ => true end.
Lemma delimitedb_sound ls c : delimitedb ls c = true -> delimited ls c.
Proof.
  unfold delimitedb. rewrite andb_true_iff. intros [H1 H2]. apply framedb_sound in H1. destruct c as [b|cs la tr]; [|exact H1]. destruct H1 as [[[N0 _] | H1] H3]; [|split; assumption].
  apply no_lineb_iff in N0. rewrite N0 in H2. discriminate.
Qed.
Definition smoothb (b : bytes) : bool :=
  match b with x :: y :: _ => negb (x =? 13) && negb (((x =? 32) || (x =? 9)) && ((y =? 10) || (y =? 13))) | [x] => negb (x =? 13) | [] => true end.
Lemma smoothb_sound b : smoothb b = true -> smooth b.
Proof.
  intro H. split.
  - intros x ->. destruct x; discriminate.
  - intros x y z Hx Hy ->. cbn [smoothb] in H. apply andb_true_iff in H as [_ H]. destruct Hx as [-> | ->], Hy as [-> | ->]; discriminate.
Qed.
Definition responseb (m : message) (r : response) : bool :=
  (Nat.eqb (length (rp_code r)) 3) && forallb is_digitb (rp_code r) && (200 <=? rp_status r) &&
  forallb (fun c => negb (c =? 10) && negb (c =? 13)) (rp_reason r) && match rp_reason r with c :: _ => negb (is_ascii_ws c) | [] => true end &&
  forallb hlineb (rp_lines r) && no_lineb "content-encoding" (rp_lines r) && (blen (coded_text (rp_content r)) <? 2 ^ 64) && contentb (rp_content r) &&
  (if bodilessb m r then match rp_content r with Plain [] => true | _ => false end else delimitedb (rp_lines r) (rp_content r) && smoothb (content_text (rp_content r))) &&
  (if (400 <=? rp_status r) && (rp_status r <=? 499) then no_lineb "expect" (rq_lines (m_req m) ++ trailer_of (m_content m)) else true).
Lemma responseb_sound m r : responseb m r = true -> good_response m r.
Proof.
  unfold responseb. rewrite !andb_true_iff. intros [[[[[[[[[[H1 H2] H3] H4] H5] H6] H7] H8] H9] H10] H11]. rewrite forallb_forall in H2, H4, H6.
  unfold good_response. split; [now apply Nat.eqb_eq|]. split; [apply Forall_forall; intros c Hc; specialize (H2 c Hc); unfold is_digitb in H2; unfold digit; lia|]. split; [now apply N.leb_le|].
  split; [apply Forall_forall; intros c Hc; specialize (H4 c Hc); lia|]. split; [intros c x E; rewrite E in H5; now apply negb_true_iff|]. split; [apply Forall_forall; intros l Hl; apply hlineb_sound; now apply H6|].
  split; [now apply no_lineb_iff|]. split; [now apply N.ltb_lt|]. split; [now apply contentb_sound|]. split.
  - destruct (bodilessb m r) eqn:B; [left; split; [now apply bodilessb_iff|destruct (rp_content r) as [[|]|]; try discriminate; reflexivity]|right]. apply andb_true_iff in H10 as [D S]. split; [rewrite <- bodilessb_iff; congruence|]. split; [now apply delimitedb_sound|now apply smoothb_sound].
  - intros [L1 L2]. apply N.leb_le in L1, L2. rewrite L1, L2 in H11. now apply no_lineb_iff.
Qed.
Definition rcuts (r : response) : list bytes :=
  ([10] ++ block_text (rp_lines r) ++ [13; 10] ++ content_text (rp_content r)) ::
  match rp_content r with
  | Plain _ => []
  | Chunked cs la tr => flat_map (fun l => match l with
                               | [] => []
                               | c :: c2 => map (fun y => y ++ data_text c ++ chunks_text c2 ++ block_text tr ++ [13; 10]) (filter (fun y => negb (is_nil y)) (tails (tl (size_line c))))
                               end) (tails (cs ++ [la]))
  end.
Lemma rcuts_all r y : reply_no_cut r y -> In y (rcuts r).
Proof.
  intros [|cs la tr c1 c c2 x z Ec E1 E2 Nx Nz]; [now left|]. right. rewrite Ec. apply in_flat_map. exists (c :: c2). split; [rewrite E1; apply tails_in|]. apply in_map_iff. exists z. split; [reflexivity|]. apply filter_In.
  split; [|destruct z; [congruence|reflexivity]]. rewrite E2. destruct x as [|x0 x]; [congruence|]. cbn [app tl]. apply tails_in.
Qed.
Definition rcleanb (rs : list response) (cs : list bytes) (rest : bytes) : bool :=
  forallb (fun b => forallb (fun l => match l with r :: after => forallb (fun y => negb (bytes_eqb (concat b ++ rest) (y ++ rtexts after))) (rcuts r) | [] => true end) (tails rs)) (tails cs).
Lemma rcleanb_sound rs cs rest : rcleanb rs cs rest = true -> reply_clean rs cs rest.
Proof.
  intros H a b before r after y Ea Er Hy E. unfold rcleanb in H. rewrite forallb_forall in H. specialize (H b). rewrite Ea in H. specialize (H (tails_in a b)). rewrite forallb_forall in H.
  specialize (H (r :: after)). rewrite Er in H. specialize (H (tails_in before (r :: after))). cbn beta iota in H. rewrite forallb_forall in H. specialize (H y (rcuts_all _ _ Hy)). apply negb_true_iff in H. apply bytes_eqb_eq in E. congruence.
Qed.
Definition bareb (r : response) : bool := match rp_content r with Plain _ => is_nil (rp_lines r) | Chunked _ _ tr => is_nil tr end.
Definition apartb (rs : list response) (cs : list bytes) (rest : bytes) : bool :=
  forallb (fun l => match l with
    | c :: b => forallb (fun tl => is_nil tl || forallb (fun q => match q with r :: after => negb (bareb r) || negb (bytes_eqb (tl ++ concat b ++ rest) (rtexts after)) | [] => true end) (tails rs)) (tails (tl c))
    | [] => true end) (tails cs).
Lemma apartb_sound rs cs rest : apartb rs cs rest = true -> apart rs cs rest.
Proof.
  intros H a x tail b before r after Ea Nx Er Hb E. unfold apartb in H. rewrite forallb_forall in H. specialize (H ((x ++ tail) :: b)). rewrite Ea in H. specialize (H (tails_in a _)). cbn beta iota in H. rewrite forallb_forall in H.
  specialize (H tail). destruct x as [|x0 x]; [congruence|]. cbn [app tl] in H. specialize (H (tails_in x tail)). destruct tail as [|t0 tail]; [reflexivity|]. cbn [is_nil orb] in H. rewrite forallb_forall in H.
  specialize (H (r :: after)). rewrite Er in H. specialize (H (tails_in before _)). cbn beta iota in H. apply bytes_eqb_eq in E. rewrite E in H. replace (bareb r) with true in H; [discriminate|].
  symmetry. unfold bareb. unfold SpecResp.bare in Hb. destruct (rp_content r); rewrite Hb; reflexivity.
Qed.
Definition roundb (rd : round) : bool :=
  forallb (fun x => messageb (fst x) && responseb (fst x) (snd x)) (rd_exchanges rd) &&
  bytes_eqb (concat (rd_up rd)) (texts (rd_asked rd)) && forallb (fun c => negb (is_nil c)) (rd_up rd) && cleanb (rd_asked rd) (rd_up rd) [] &&
  bytes_eqb (concat (rd_down rd)) (rtexts (rd_answers rd)) && forallb (fun c => negb (is_nil c)) (rd_down rd) && rcleanb (rd_answers rd) (rd_down rd) [] && apartb (rd_answers rd) (rd_down rd) [].
Lemma roundb_sound rd : roundb rd = true -> good_round rd.
Proof.
  unfold roundb. rewrite !andb_true_iff. intros [[[[[[[H1 H2] H3] H4] H5] H6] H7] H8]. rewrite forallb_forall in H1, H3, H6.
  split; [apply Forall_forall; intros x Hx; specialize (H1 x Hx); apply andb_true_iff in H1 as [H1 H1']; split; [now apply messageb_sound|now apply responseb_sound]|].
  split; [now apply bytes_eqb_eq|]. split; [intro I; specialize (H3 _ I); discriminate|]. split; [now apply cleanb_sound|]. split; [now apply bytes_eqb_eq|]. split; [intro I; specialize (H6 _ I); discriminate|]. split; [now apply rcleanb_sound|now apply apartb_sound].
Qed.
Lemma roundsb_sound rds : forallb roundb rds = true -> Forall good_round rds.
Proof. intro H. rewrite forallb_forall in H. apply Forall_forall. intros m Hm. apply roundb_sound. now apply H. Qed.
