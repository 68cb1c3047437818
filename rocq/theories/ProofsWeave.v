(** Requests and responses that arrive in any order in which no response precedes its request: each direction is followed in a
    copy of the state whose trace has only the events of that direction. *)
From Verif Require Import Base Spec SpecTx SpecMsg SpecResp SpecWeave ModelUtil ModelParsers ModelHeaders ModelState ModelTx ModelConn SpecConn ProofsBase ProofsParsers ProofsHeaders ProofsTx ProofsConn ProofsCore ProofsLoop ProofsHist ProofsEval ProofsBody ProofsHead ProofsFrame ProofsQuiet ProofsStream ProofsChunk ProofsMsg ProofsRStream ProofsRHead ProofsRBody ProofsRMsg.

(** * The same position in another context *)
Definition qctx (z : nat) (s : st) : ctx := mk_ctx (fun j => tx_get j (s_txs s)) (outside s) z.
Definition pctx (i : N) (v : option tx) (s : st) : ctx := mk_ctx (fun j => if j =? i then v else tx_get j (s_txs s)) (r_outside s) (length (s_txs s)).
Definition same_or_new (a b : option tx) : Prop := b = a \/ (a = None /\ b = Some tx_new).
Lemma paused_again {cfg} i C tr ms X s z s1 : paused cfg i C tr ms X s -> s_req s1 = s_req s -> s_ridx s1 = s_ridx s -> s_trace s1 = s_trace s ->
  same_or_new (tx_get i (s_txs s)) (tx_get i (s_txs s1)) -> (length (s_txs s1) <= S z)%nat -> (tx_get i (s_txs s1) = None -> (length (s_txs s1) <= z)%nat) ->
  paused cfg i (qctx z s1) tr ms X s1.
Proof.
  intros P E1 E2 E3 E4 L1 L2.
  assert (Mi : forall x rv b h t tr', mile x rv b h i t tr' C s -> mile x rv b h i t tr' (qctx z s1) s1).
  { intros x rv b h t tr' [D1 D2 D3 D4 D5 D6 D7 D8 D9 D10 D11 D12]. constructor; rewrite ?E1, ?E2, ?E3; try assumption; try reflexivity.
    destruct E4 as [E4 | [E4 _]]; congruence. }
  assert (Rs : forall b tr', resting b i tr' C s -> resting b i tr' (qctx z s1) s1).
  { intros b tr' [D1 D2 D3 D4 D5 D6 D7 D8 D9 D10 D11]. constructor; rewrite ?E1, ?E2, ?E3; try assumption; try reflexivity. cbn [cx_size qctx].
    destruct E4 as [E4 | [_ E4]]; rewrite E4 in *; [|now left]. destruct D8 as [[D8 _] | [D8 _]]; rewrite D8 in *; [now left|right; split; [reflexivity|now apply L2]]. }
  destruct P; [apply pa_idle; now apply Rs|..]; try (rewrite <- E1 in *); try (econstructor; eauto; fail).
Qed.
Lemma rpaused_again i C tr xs X s s1 : rpaused i C tr xs X s -> s_resp s1 = s_resp s -> s_pidx s1 = s_pidx s -> s_trace s1 = s_trace s ->
  NoDup (map fst (s_txs s1)) -> tx_get i (s_txs s1) = tx_get i (s_txs s) -> rpaused i (pctx i (cx_table C i) s1) tr xs X s1.
Proof.
  intros P E1 E2 E3 K E4. set (C1 := pctx _ _ _).
  assert (T : forall j, j <> i -> tx_get j (s_txs s1) = cx_table C1 j) by (intros j Hj; cbn; destruct (N.eqb_spec j i); [contradiction|reflexivity]).
  assert (Ti : cx_table C1 i = cx_table C i) by (cbn; now rewrite N.eqb_refl).
  assert (St : stocked (length (s_txs s1)) (s_txs s1)) by (split; [exact K|lia]).
  assert (Mi : forall x rv b h t tr', rmile x rv b h i t tr' C s -> rmile x rv b h i t tr' C1 s1).
  { intros x rv b h t tr' [D1 D2 D3 D4 D5 D6 D7 D8 D9 D10 D11 D12]. constructor; rewrite ?E1, ?E2, ?E3, ?E4; try assumption; try reflexivity. }
  assert (Rs : forall b tr', rresting b i tr' C s -> rresting b i tr' C1 s1).
  { intros b tr' [D1 D2 D3 D4 D5 D6 D7 D8 D9 D10 D11]. constructor; rewrite ?E1, ?E2, ?E3, ?E4, ?Ti; try assumption; try reflexivity. 
    destruct D8 as [[D8 _] | (D8 & D8' & _)]; [left; split; [exact D8|exact St]|right; split; [exact D8|split; [exact D8'|]]]. split; [exact K|]. cbn [C1 pctx cx_size]. lia. }
  destruct P; [apply ra_idle; now apply Rs|..]; rewrite <- ?E1, <- ?Ti in *; try (econstructor; eauto; fail).
Qed.
Lemma rresting_again i C tr s s1 : rresting [] i tr C s -> s_resp s1 = s_resp s -> s_pidx s1 = s_pidx s -> s_trace s1 = s_trace s ->
  NoDup (map fst (s_txs s1)) -> rresting [] i tr (pctx i (tx_get i (s_txs s1)) s1) s1.
Proof.
  intros [D1 D2 D3 D4 D5 D6 D7 D8 D9 D10 D11] E1 E2 E3 K. constructor; rewrite ?E1, ?E2, ?E3; try assumption; try reflexivity.
  - left. cbn. rewrite N.eqb_refl. split; [reflexivity|]. split; [exact K|lia].
  - intros j Hj. cbn. destruct (N.eqb_spec j i); [contradiction|reflexivity].
Qed.
Lemma rpaused_none i C tr X s : rpaused i C tr [] X s -> X = [] /\ rresting [] i tr C s.
Proof. intro P. inversion P; subst. split; [reflexivity|assumption]. Qed.
Lemma texts_app a b : texts (a ++ b) = texts a ++ texts b. Proof. unfold texts. now rewrite map_app, concat_app. Qed.
Lemma rtexts_app a b : rtexts (a ++ b) = rtexts a ++ rtexts b. Proof. unfold rtexts. now rewrite map_app, concat_app. Qed.
Lemma xtexts_app a b : xtexts (a ++ b) = xtexts a ++ xtexts b. Proof. unfold xtexts. now rewrite map_app, rtexts_app. Qed.

(** * Lists that are longer *)
Lemma paused_more {cfg} i C tr ms ms2 X s : paused cfg i C tr ms X s -> paused cfg i C tr (ms ++ ms2) (X ++ texts ms2) s.
Proof.
  intro P. destruct P; rewrite <- ?app_assoc, <- ?texts_app; cbn [app]; try (rewrite <- texts_app); try (econstructor; eauto; fail).
Qed.
Lemma rpaused_more i C tr xs xs2 X s : rpaused i C tr xs X s -> rpaused i C tr (xs ++ xs2) (X ++ xtexts xs2) s.
Proof.
  intro P. destruct P; rewrite <- ?app_assoc, <- ?xtexts_app; cbn [app]; try (rewrite <- xtexts_app).
  all: try (econstructor; eauto; fail).
  - pose proof (ra_line i C tr m r (xs ++ xs2) p l t s) as Z. rewrite <- !app_assoc in Z. now apply Z.
  - pose proof (ra_final i C tr m r m' r' (xs ++ xs2) p l t es s) as Z. rewrite <- !app_assoc in Z. now apply Z.
Qed.

(** * Where the parser is *)
Lemma message_text_long m : (0 < length (message_text m))%nat.
Proof. rewrite message_text_line. unfold request_line_text. rewrite !app_length. cbn [length]. lia. Qed.
Lemma response_text_long r : (0 < length (response_text r))%nat.
Proof. rewrite response_text_line. rewrite !app_length. cbn [length]. lia. Qed.
(** What is still to come ends what was to come at the start of the message. *)
Definition in_message (ms : list message) (X : bytes) : Prop :=
  (ms = [] /\ X = []) \/
  (exists m ms' Y, ms = m :: ms' /\ texts ms = Y ++ X /\ (length (texts ms') < length X)%nat) \/
  (exists m m' ms' Y, ms = m :: m' :: ms' /\ texts ms = message_text m ++ Y ++ X /\ Y <> [] /\ (length (after_line m' ++ texts ms') < length X)%nat).
Definition in_response (xs : list (message * response)) (X : bytes) : Prop :=
  (xs = [] /\ X = []) \/
  (exists x xs' Y, xs = x :: xs' /\ xtexts xs = Y ++ X /\ (length (xtexts xs') < length X)%nat) \/
  (exists x x' xs' Y, xs = x :: x' :: xs' /\ xtexts xs = response_text (snd x) ++ Y ++ X /\ Y <> [] /\ (length (rafter_line (snd x') ++ xtexts xs') < length X)%nat).
Lemma nonempty_length {A} (l : list A) : l <> [] -> (0 < length l)%nat. Proof. destruct l; [congruence|cbn; lia]. Qed.
Lemma block_text_app a b : block_text (a ++ b) = block_text a ++ block_text b.
Proof. unfold block_text. now rewrite map_app, concat_app. Qed.
Lemma content_plain b : content_text (Plain b) = b. Proof. apply app_nil_r. Qed.
Lemma content_chunked cs la trl ds l : cs ++ [la] = ds ++ l -> content_text (Chunked cs la trl) = chunks_text ds ++ chunks_text l ++ block_text trl ++ [13; 10].
Proof. intro E. unfold content_text, coded_text. rewrite E, chunks_text_app. now rewrite <- !app_assoc. Qed.
Lemma data_text_some c : ck_data c <> [] -> data_text c = ck_data c ++ [13; 10]. Proof. unfold data_text. destruct (ck_data c); [congruence|reflexivity]. Qed.
Lemma paused_where {cfg} i C tr ms X s : paused cfg i C tr ms X s -> in_message ms X.
Proof.
  intro P. destruct P as [ms s Q|m ms p q s Eq Nq M|m ms ls1 ls2 p q t hs s El K Eq Nq Hp Eh M|m ms b1 b2 t es s Ec Nb Rd Be M L|m ms cs la trl ds l t es s Ec Ep Nl Rd Be M|m ms cs la trl ds ck l d1 d2 t es s Ec Ep Ed Nd Rd Be M L|m ms cs la trl ds ck l t es s Ec Ep Nd Rd Be M|m ms cs la trl ls1 ls2 p q t es hs s Ec Et Eq Nq Hp Eh Rd Tp Be M|m m' ms p q t es s Eq Np Nq Rd Be M].
  1: destruct ms as [|m ms]; [now left|right; left; exists m, ms, []; split; [reflexivity|split; [reflexivity|]]; rewrite texts_cons, app_length; pose proof (message_text_long m); lia].
  8: { right; right. exists m, m', ms, p. split; [reflexivity|]. split; [rewrite !texts_cons, (message_text_line m'), <- Eq; now rewrite <- !app_assoc|]. split; [exact Np|]. rewrite !app_length. apply nonempty_length in Nq. lia. }
  all: right; left; exists m, ms; rewrite texts_cons, message_text_line; unfold after_line.
  - exists p. split; [reflexivity|]. split; [rewrite <- Eq; now rewrite <- !app_assoc|]. rewrite !app_length. apply nonempty_length in Nq. lia.
  - exists (request_line_text (m_req m) ++ block_text ls1 ++ p). split; [reflexivity|]. split; [|rewrite !app_length; apply nonempty_length in Nq; lia].
    rewrite El, block_text_app, <- !app_assoc, (app_assoc p), Eq. now rewrite <- !app_assoc.
  - exists (request_line_text (m_req m) ++ block_text (rq_lines (m_req m)) ++ [13; 10] ++ b1). split; [reflexivity|]. split; [|rewrite !app_length; apply nonempty_length in Nb; lia].
    rewrite Ec, content_plain. now rewrite <- !app_assoc.
  - exists (request_line_text (m_req m) ++ block_text (rq_lines (m_req m)) ++ [13; 10] ++ chunks_text ds). split; [reflexivity|]. split; [|rewrite !app_length; cbn [length]; lia].
    rewrite Ec, (content_chunked cs la trl ds l Ep). now rewrite <- !app_assoc.
  - exists (request_line_text (m_req m) ++ block_text (rq_lines (m_req m)) ++ [13; 10] ++ chunks_text ds ++ size_line ck ++ d1). split; [reflexivity|]. split; [|rewrite !app_length; cbn [length]; lia].
    rewrite Ec, (content_chunked cs la trl ds (ck :: l) Ep), chunks_text_cons, data_text_some by (rewrite Ed; destruct d1; [exact Nd|discriminate]). rewrite Ed. now rewrite <- !app_assoc.
  - exists (request_line_text (m_req m) ++ block_text (rq_lines (m_req m)) ++ [13; 10] ++ chunks_text ds ++ size_line ck ++ ck_data ck). split; [reflexivity|]. split; [|rewrite !app_length; cbn [length]; lia].
    rewrite Ec, (content_chunked cs la trl ds (ck :: l) Ep), chunks_text_cons, data_text_some by exact Nd. now rewrite <- !app_assoc.
  - exists (request_line_text (m_req m) ++ block_text (rq_lines (m_req m)) ++ [13; 10] ++ chunks_text (cs ++ [la]) ++ block_text ls1 ++ p). split; [reflexivity|]. split; [|rewrite !app_length; apply nonempty_length in Nq; lia].
    rewrite Ec, (content_chunked cs la trl (cs ++ [la]) []) by now rewrite app_nil_r. change (chunks_text []) with (@nil N). rewrite Et, block_text_app, <- !app_assoc, (app_assoc p), Eq. now rewrite <- !app_assoc.
Qed.
Lemma rpaused_where i C tr xs X s : rpaused i C tr xs X s -> in_response xs X.
Proof.
  intro P. destruct P as [xs s Q|m r xs p l t s El Ct M|m r xs ls1 ls2 p q t hs s El Eq Nq Hp Eh Rd Tp M|m r xs b1 b2 t es s Ec Nb Rd Be M L|m r xs cs la trl ds l t es s Ec Ep Nl Rd Be M|m r xs cs la trl ds ck l d1 d2 t es s Ec Ep Ed Nd Rd Be M L|m r xs cs la trl ds ck l x y t es s Ec Ep Nd Ex Ny Rd Be M|m r xs cs la trl ls1 ls2 p q t es hs s Ec Et Eq Nq Hp Eh Rd Tp Be M|m r m' r' xs p l t es s El Np Rd Be M].
  1: destruct xs as [|[m r] xs]; [now left|right; left; exists (m, r), xs, []; split; [reflexivity|split; [reflexivity|]]; rewrite xtexts_cons, !app_length; cbn [length]; lia].
  8: { right; right. exists (m, r), (m', r'), xs, p. split; [reflexivity|]. split; [rewrite !xtexts_cons, <- El; cbn [snd]; rewrite response_text_line; now rewrite <- !app_assoc|]. split; [exact Np|]. cbn [snd]. rewrite !app_length. cbn [length]. lia. }
  all: right; left; exists (m, r), xs; rewrite xtexts_cons; unfold rafter_line.
  - exists p. split; [reflexivity|]. split; [rewrite <- El; now rewrite <- !app_assoc|]. rewrite !app_length. cbn [length]. lia.
  - exists ((line_body r ++ [13; 10]) ++ block_text ls1 ++ p). split; [reflexivity|]. split; [|rewrite !app_length; apply nonempty_length in Nq; lia].
    rewrite El, block_text_app, <- !app_assoc, (app_assoc p), Eq. now rewrite <- !app_assoc.
  - exists ((line_body r ++ [13; 10]) ++ block_text (rp_lines r) ++ [13; 10] ++ b1). split; [reflexivity|]. split; [|rewrite !app_length; apply nonempty_length in Nb; lia].
    rewrite Ec, content_plain. now rewrite <- !app_assoc.
  - exists ((line_body r ++ [13; 10]) ++ block_text (rp_lines r) ++ [13; 10] ++ chunks_text ds). split; [reflexivity|]. split; [|rewrite !app_length; cbn [length]; lia].
    rewrite Ec, (content_chunked cs la trl ds l Ep). now rewrite <- !app_assoc.
  - exists ((line_body r ++ [13; 10]) ++ block_text (rp_lines r) ++ [13; 10] ++ chunks_text ds ++ size_line ck ++ d1). split; [reflexivity|]. split; [|rewrite !app_length; cbn [length]; lia].
    rewrite Ec, (content_chunked cs la trl ds (ck :: l) Ep), chunks_text_cons, data_text_some by (rewrite Ed; destruct d1; [exact Nd|discriminate]). rewrite Ed. now rewrite <- !app_assoc.
  - exists ((line_body r ++ [13; 10]) ++ block_text (rp_lines r) ++ [13; 10] ++ chunks_text ds ++ size_line ck ++ ck_data ck ++ x). split; [reflexivity|]. split; [|rewrite !app_length; cbn [length]; lia].
    rewrite Ec, (content_chunked cs la trl ds (ck :: l) Ep), chunks_text_cons, data_text_some by exact Nd. rewrite <- Ex. now rewrite <- !app_assoc.
  - exists ((line_body r ++ [13; 10]) ++ block_text (rp_lines r) ++ [13; 10] ++ chunks_text (cs ++ [la]) ++ block_text ls1 ++ p). split; [reflexivity|]. split; [|rewrite !app_length; apply nonempty_length in Nq; lia].
    rewrite Ec, (content_chunked cs la trl (cs ++ [la]) []) by now rewrite app_nil_r. change (chunks_text []) with (@nil N). rewrite Et, block_text_app, <- !app_assoc, (app_assoc p), Eq. now rewrite <- !app_assoc.
Qed.
Lemma in_message_suffix ms X : in_message ms X -> exists Y, texts ms = Y ++ X.
Proof. intros [[-> ->] | [(m & ms' & Y & _ & E & _) | (m & m' & ms' & Y & _ & E & _)]]; [now exists []|now exists Y|]. exists (message_text m ++ Y). now rewrite <- app_assoc. Qed.
(** Messages that the call does not reach play no role in it. *)
Lemma paused_less {cfg} i C tr ms1 ms2 X s : X <> [] -> paused cfg i C tr (ms1 ++ ms2) (X ++ texts ms2) s -> paused cfg i C tr ms1 X s.
Proof.
  intros Nx P. remember (ms1 ++ ms2) as ms eqn:Em. remember (X ++ texts ms2) as Z eqn:EZ.
  assert (E : forall A T, Z = A ++ T ++ texts ms2 -> X = A ++ T) by (intros A T H; rewrite EZ, app_assoc in H; now apply app_inv_tail in H).
  destruct (in_message_suffix _ _ (paused_where _ _ _ _ _ _ P)) as (Y & EY). rewrite EZ, Em, texts_app, app_assoc in EY. apply app_inv_tail in EY.
  destruct P as [ms s Q|m ms p q s Eq Nq M|m ms ls1 ls2 p q t hs s El K Eq Nq Hp Eh M|m ms b1 b2 t es s Ec Nb Rd Be M L|m ms cs la trl ds l t es s Ec Ep Nl Rd Be M|m ms cs la trl ds ck l d1 d2 t es s Ec Ep Ed Nd Rd Be M L|m ms cs la trl ds ck l t es s Ec Ep Nd Rd Be M|m ms cs la trl ls1 ls2 p q t es hs s Ec Et Eq Nq Hp Eh Rd Tp Be M|m m' ms p q t es s Eq Np Nq Rd Be M].
  1: { rewrite Em, texts_app in EZ. apply app_inv_tail in EZ as <-. now apply pa_idle. }
  all: destruct ms1 as [|m1 ms1]; [apply nonempty_length in Nx; apply (f_equal (@length N)) in EY; rewrite app_length in EY; cbn in EY; lia|].
  8: { destruct ms1 as [|m2 ms1]; cbn [app] in Em.
       - injection Em as <- <-. exfalso. apply (f_equal (@length N)) in EZ. rewrite texts_cons, message_text_line, <- Eq, !app_length in EZ. apply nonempty_length in Nx, Np. lia.
       - injection Em as <- <- ->. rewrite texts_app, !app_assoc in EZ. apply app_inv_tail in EZ. rewrite <- EZ, <- !app_assoc. eapply pa_final; eassumption. }
  all: injection Em as <- ->; rewrite texts_app, !app_assoc in EZ; apply app_inv_tail in EZ; rewrite <- EZ, <- ?app_assoc.
  all: econstructor; eassumption.
Qed.
Lemma texts_len_le a b : (length (texts a) <= length (texts (a ++ b)))%nat. Proof. rewrite texts_app, app_length. lia. Qed.
(** The parser has seen the end of every request that has arrived. *)
Lemma arrived_done ms1 ms2 n B X : arrived (ms1 ++ ms2) n B -> texts (ms1 ++ ms2) = B ++ X -> in_message ms2 X -> (n <= length ms1)%nat.
Proof.
  intros [Hn Ha] E W. destruct (Nat.le_gt_cases n (length ms1)) as [|Lt]; [assumption|exfalso].
  rewrite firstn_app in Ha. rewrite (firstn_all2 ms1) in Ha by lia. rewrite nth_error_app2 in Ha by lia. rewrite app_length in Hn.
  rewrite !texts_app in *. apply (f_equal (@length N)) in E. rewrite !app_length in E.
  set (k := (n - length ms1)%nat) in *. assert (Hk : (0 < k <= length ms2)%nat) by lia.
  destruct W as [[-> ->] | [(m & ms' & Y & -> & EY & L) | (m & m' & ms' & Y & -> & EY & Ny & L)]].
  - cbn in Hk. lia.
  - destruct k as [|k]; [lia|]. cbn [firstn nth_error] in Ha. rewrite texts_cons in *. apply (f_equal (@length N)) in EY. rewrite !app_length in EY, E.
    destruct Ha as [-> | (m' & _ & Ha)]; rewrite ?app_length in *; lia.
  - destruct k as [|[|k]]; [lia|..]; cbn [firstn nth_error] in Ha; rewrite !texts_cons, ?(message_text_line m') in *; apply (f_equal (@length N)) in EY; rewrite !app_length in *; change (texts []) with (@nil N) in *.
    + apply nonempty_length in Ny. destruct Ha as [-> | (x & [= <-] & Ha)]; rewrite ?app_length in *; cbn [length] in *; lia.
    + destruct Ha as [-> | (x & _ & Ha)]; rewrite ?app_length in *; lia.
Qed.
Lemma settled_done xs1 xs2 n B X : settled (map snd (xs1 ++ xs2)) n B -> xtexts (xs1 ++ xs2) = B ++ X -> in_response xs2 X -> (n <= length xs1)%nat.
Proof.
  intros [Hn Ha] E W. destruct (Nat.le_gt_cases n (length xs1)) as [|Lt]; [assumption|exfalso].
  assert (Ha' : B = xtexts (firstn n (xs1 ++ xs2)) \/ exists x, nth_error (xs1 ++ xs2) n = Some x /\ (length (xtexts (firstn n (xs1 ++ xs2))) + length (status_line_text (snd x)) <= length B)%nat).
  { rewrite firstn_map in Ha. destruct Ha as [Ha | (r & Hr & Ha)]; [now left|right]. rewrite nth_error_map in Hr. destruct (nth_error (xs1 ++ xs2) n) as [x|]; [|discriminate]. injection Hr as <-. now exists x. }
  clear Ha. rename Ha' into Ha. rewrite map_length in Hn.
  rewrite firstn_app in Ha. rewrite (firstn_all2 xs1) in Ha by lia. rewrite nth_error_app2 in Ha by lia. rewrite app_length in Hn.
  rewrite !xtexts_app in *. apply (f_equal (@length N)) in E. rewrite !app_length in E.
  set (k := (n - length xs1)%nat) in *. assert (Hk : (0 < k <= length xs2)%nat) by lia.
  destruct W as [[-> ->] | [([m r] & xs' & Y & -> & EY & L) | ([m r] & [m' r'] & xs' & Y & -> & EY & Ny & L)]]; cbn [snd] in *.
  - cbn in Hk. lia.
  - destruct k as [|k]; [lia|]. cbn [firstn nth_error] in Ha. rewrite xtexts_cons in *. apply (f_equal (@length N)) in EY. rewrite !app_length in EY, E.
    destruct Ha as [-> | (m' & _ & Ha)]; rewrite ?app_length in *; lia.
  - destruct k as [|[|k]]; [lia|..]; cbn [firstn nth_error] in Ha; rewrite !xtexts_cons, ?response_text_line in *; apply (f_equal (@length N)) in EY; rewrite !app_length in *; change (xtexts []) with (@nil N) in *.
    + apply nonempty_length in Ny. destruct Ha as [-> | (x & [= <-] & Ha)]; rewrite ?app_length in *; cbn [length snd] in *; [lia|]. rewrite status_line_body, app_length in Ha. cbn [length] in Ha. lia.
    + destruct Ha as [-> | (x & _ & Ha)]; rewrite ?app_length in *; lia.
Qed.

(** * Whose events *)
Definition asks (ev : event) : Prop := of_request ev = true.
Definition replies (i : N) (ev : event) : Prop := of_response ev = true /\ ev_tx ev = i.
Lemma asks_pieces i bs : Forall asks (flat_map (fun b => body_piece i (PlData b)) bs).
Proof. induction bs as [|b bs IH]; [constructor|]. cbn [flat_map]. apply Forall_app. split; [repeat constructor|exact IH]. Qed.
Lemma asks_trailer i c ts : trailer_events i c ts -> Forall asks ts.
Proof. destruct c; [intros ->; constructor|intros (hs & _ & ->)]. apply Forall_app. split; [apply Forall_map, Forall_forall; reflexivity|repeat constructor]. Qed.
Lemma asks_line i ps : Forall asks (line_events i ps).
Proof. unfold line_events. apply Forall_app. split; [repeat constructor|]. apply Forall_app. split; [apply Forall_map, Forall_forall; reflexivity|repeat constructor]. Qed.
Lemma asks_body {cfg} i m b es : body_events cfg i m b es -> Forall asks es.
Proof.
  intros (he & bs & (hs & _ & ->) & _ & _ & ->). apply Forall_app. split; [|apply asks_pieces]. apply Forall_app. split; [apply asks_line|]. apply Forall_app. split; [apply Forall_map, Forall_forall; reflexivity|repeat constructor].
Qed.
Lemma asks_message {cfg} i m es : message_events cfg i m es -> Forall asks es.
Proof.
  intros (ps & hs & bs & ts & n & _ & _ & _ & _ & Ht & _ & ->). repeat (apply Forall_app; split); try (repeat constructor; fail).
  - apply Forall_map, Forall_forall; reflexivity.
  - apply Forall_map, Forall_forall; reflexivity.
  - apply asks_pieces.
  - exact (asks_trailer _ _ _ Ht).
  - clear. induction n as [|n IH]; [constructor|]. cbn [repeat concat]. apply Forall_app. split; [repeat constructor|exact IH].
Qed.
Lemma asks_stream {cfg} i ms es : stream_events cfg i ms es -> Forall asks es.
Proof. induction 1; [constructor|]. apply Forall_app. split; [eapply asks_message; eassumption|assumption]. Qed.
Lemma replies_pieces i bs : Forall (replies i) (flat_map (fun b => reply_piece i (PlData b)) bs).
Proof. induction bs as [|b bs IH]; [constructor|]. cbn [flat_map]. apply Forall_app. split; [repeat constructor|exact IH]. Qed.
Lemma replies_trailer i c ts : reply_trailer_events i c ts -> Forall (replies i) ts.
Proof. destruct c; [intros ->; constructor|intros (hs & _ & ->)]. apply Forall_app. split; [apply Forall_map, Forall_forall; split; reflexivity|repeat constructor]. Qed.
Lemma replies_body i r b es : rbody_events i r b es -> Forall (replies i) es.
Proof.
  intros (he & bs & (hs & _ & ->) & _ & _ & ->). apply Forall_app. split; [|apply replies_pieces]. apply Forall_app. split; [repeat constructor|]. apply Forall_app. split; [apply Forall_map, Forall_forall; split; reflexivity|repeat constructor].
Qed.
Lemma replies_response i r es : response_events i r es -> Forall (replies i) es.
Proof.
  intros (hs & bs & ts & _ & _ & _ & Ht & ->). repeat (apply Forall_app; split); try (repeat constructor; fail).
  - apply Forall_map, Forall_forall; split; reflexivity.
  - apply replies_pieces.
  - exact (replies_trailer _ _ _ Ht).
Qed.
Lemma replies_stream i rs es : reply_events i rs es -> Forall (fun ev => of_response ev = true /\ i <= ev_tx ev < i + N.of_nat (length rs)) es.
Proof.
  induction 1 as [|i r rs es es' H1 H2 IH]; [constructor|]. apply Forall_app. split.
  - apply replies_response in H1. eapply Forall_impl; [|exact H1]. intros ev [A B]. split; [exact A|]. cbn [length]. lia.
  - eapply Forall_impl; [|exact IH]. intros ev [A B]. split; [exact A|]. cbn [length]. lia.
Qed.
Lemma stream_completes {cfg} i ms es : stream_events cfg i ms es -> forall k, i <= k < i + N.of_nat (length ms) -> In (mk_ev HRequestComplete k PlNone) es.
Proof.
  induction 1 as [|i m ms es es' H1 H2 IH]; intros k Hk; [cbn in Hk; lia|]. apply in_or_app. cbn [length] in Hk. destruct (N.eq_dec k i) as [->|Ne]; [left|right; apply IH; lia].
  destruct H1 as (ps & hs & bs & ts & n & _ & _ & _ & _ & _ & _ & ->). repeat (apply in_or_app; right). now left.
Qed.
Lemma paused_trace {cfg} i C tr ms X s : paused cfg i C tr ms X s -> exists es, s_trace s = tr_of es tr /\ Forall asks es.
Proof.
  intro P. destruct P as [ms s Q|m ms p q s Eq Nq M|m ms ls1 ls2 p q t hs s El K Eq Nq Hp Eh M|m ms b1 b2 t es s Ec Nb Rd Be M L|m ms cs la trl ds l t es s Ec Ep Nl Rd Be M|m ms cs la trl ds ck l d1 d2 t es s Ec Ep Ed Nd Rd Be M L|m ms cs la trl ds ck l t es s Ec Ep Nd Rd Be M|m ms cs la trl ls1 ls2 p q t es hs s Ec Et Eq Nq Hp Eh Rd Tp Be M|m m' ms p q t es s Eq Np Nq Rd Be M].
  1: { exists []. split; [exact (rs_trace _ _ _ _ _ Q)|constructor]. }
  all: eexists; split; [exact (ml_trace _ _ _ _ _ _ _ _ _ M)|].
  - repeat constructor.
  - apply Forall_app. split; [apply asks_line|apply Forall_map, Forall_forall; reflexivity].
  - exact (asks_body _ _ _ _ Be).
  - exact (asks_body _ _ _ _ Be).
  - exact (asks_body _ _ _ _ Be).
  - exact (asks_body _ _ _ _ Be).
  - apply Forall_app. split; [exact (asks_body _ _ _ _ Be)|apply Forall_map, Forall_forall; reflexivity].
  - destruct Be as (be & ts & Hb & Ht & ->). apply Forall_app. split; [exact (asks_body _ _ _ _ Hb)|]. apply Forall_app. split; [exact (asks_trailer _ _ _ Ht)|]. destruct (m_content m) as [[|]|]; repeat constructor.
Qed.
Lemma rpaused_trace i C tr xs X s : rpaused i C tr xs X s -> exists es, s_trace s = tr_of es tr /\ Forall (replies i) es /\ (es <> [] -> xs <> []).
Proof.
  intro P. destruct P as [xs s Q|m r xs p l t s El Ct M|m r xs ls1 ls2 p q t hs s El Eq Nq Hp Eh Rd Tp M|m r xs b1 b2 t es s Ec Nb Rd Be M L|m r xs cs la trl ds l t es s Ec Ep Nl Rd Be M|m r xs cs la trl ds ck l d1 d2 t es s Ec Ep Ed Nd Rd Be M L|m r xs cs la trl ds ck l x y t es s Ec Ep Nd Ex Ny Rd Be M|m r xs cs la trl ls1 ls2 p q t es hs s Ec Et Eq Nq Hp Eh Rd Tp Be M|m r m' r' xs p l t es s El Np Rd Be M].
  1: { exists []. split; [exact (rr_trace _ _ _ _ _ Q)|]. split; [constructor|congruence]. }
  all: eexists; split; [exact (rm_trace _ _ _ _ _ _ _ _ _ M)|split; [|discriminate]].
  - repeat constructor.
  - apply Forall_app. split; [repeat constructor|apply Forall_map, Forall_forall; split; reflexivity].
  - exact (replies_body _ _ _ _ Be).
  - exact (replies_body _ _ _ _ Be).
  - exact (replies_body _ _ _ _ Be).
  - exact (replies_body _ _ _ _ Be).
  - apply Forall_app. split; [exact (replies_body _ _ _ _ Be)|apply Forall_map, Forall_forall; split; reflexivity].
  - destruct Be as (be & ts & Hb & Ht & ->). apply Forall_app. split; [exact (replies_body _ _ _ _ Hb)|exact (replies_trailer _ _ _ Ht)].
Qed.
Lemma paused_facts {cfg} i C tr ms X s : paused cfg i C tr ms X s -> outside s = cx_rest C /\ s_ridx s = i.
Proof. intro P. destruct P; match goal with H : mile _ _ _ _ _ _ _ _ _ |- _ => destruct H | H : resting _ _ _ _ _ |- _ => destruct H end; split; assumption. Qed.
Lemma rpaused_facts i C tr xs X s : rpaused i C tr xs X s -> r_outside s = cx_rest C /\ s_pidx s = i /\ rlive (d_status (s_resp s)) /\ (forall j, j <> i -> tx_get j (s_txs s) = cx_table C j).
Proof. intro P. destruct P; match goal with H : rmile _ _ _ _ _ _ _ _ _ |- _ => destruct H | H : rresting _ _ _ _ _ |- _ => destruct H end; repeat split; assumption. Qed.

(** * One direction at a time *)
Definition view (keep : event -> bool) (s : st) : st := set_s_trace (tr_of (filter keep (events s)) []) s.
Lemma view_events keep s : events (view keep s) = filter keep (events s). Proof. now apply events_tr_of. Qed.
Lemma view_same keep s s' : events s' = events s -> s_trace (view keep s') = s_trace (view keep s). Proof. intro H. unfold view. cbn. now rewrite H. Qed.
Lemma tr_of_inj es es' : tr_of es [] = tr_of es' [] -> es = es'.
Proof. intro H. rewrite <- (events_tr_of es (set_s_trace (tr_of es []) st_new) eq_refl). apply events_tr_of. exact H. Qed.
Lemma filter_all {A} (f : A -> bool) l : Forall (fun x => f x = true) l -> filter f l = l.
Proof. induction 1 as [|x l H _ IH]; [reflexivity|]. cbn [filter]. now rewrite H, IH. Qed.
Lemma filter_no {A} (f : A -> bool) l : Forall (fun x => f x = false) l -> filter f l = [].
Proof. induction 1 as [|x l H _ IH]; [reflexivity|]. cbn [filter]. now rewrite H. Qed.
(** What a call does to the copy it does to the state. *)
Lemma view_run keep o e s r s1 E : accepting e -> run_ops [o] e (view keep s) = (ROk [r], s1) -> s_trace s1 = tr_of E [] -> Forall (fun ev => keep ev = true) E ->
  exists s2 D, run_op o e s = (ROk r, s2) /\ bare s2 = bare s1 /\ events s2 = events s ++ D /\ E = filter keep (events s) ++ D /\ Forall (fun ev => keep ev = true) D /\ s_trace (view keep s2) = s_trace s1.
Proof.
  intros A H Et Ke. assert (H' : run_op o e (view keep s) = (ROk r, s1)).
  { cbn [run_ops] in H. unfold bind in H. destruct (run_op o e (view keep s)) as [[u|u| |] s3]; try discriminate H. cbn in H. now injection H as <- <-. }
  destruct (com_run_op o e e (view keep s) s A A eq_refl (events (view keep s), events s)) as [H1 [H2 (D & H3 & H4)]].
  { split; [reflexivity|]. exists []. cbn [fst snd]. now rewrite !app_nil_r. }
  rewrite H' in H1, H2, H3. cbn [fst snd] in *. destruct (run_op o e s) as [r2 s2]. cbn [fst snd] in *. subst r2. rewrite view_events, (events_tr_of _ _ Et) in H3.
  assert (Kd : Forall (fun ev => keep ev = true) D) by (rewrite H3 in Ke; now apply Forall_app in Ke).
  exists s2, D. split; [reflexivity|]. split; [now symmetry|]. split; [exact H4|]. split; [exact H3|]. split; [exact Kd|].
  unfold view. cbn [s_trace set_s_trace]. rewrite H4, filter_app, (filter_all _ D Kd), Et, H3. reflexivity.
Qed.
Lemma bare_fields s s' : bare s = bare s' -> s_req s = s_req s' /\ s_resp s = s_resp s' /\ s_ridx s = s_ridx s' /\ s_pidx s = s_pidx s' /\ s_txs s = s_txs s' /\ s_other_at_end s = s_other_at_end s'.
Proof. intro H. repeat split; [exact (f_equal s_req H)|exact (f_equal s_resp H)|exact (f_equal s_ridx H)|exact (f_equal s_pidx H)|exact (f_equal s_txs H)|exact (f_equal s_other_at_end H)]. Qed.

(** * Sizes of tables *)
Lemma tx_get_key i l : In i (map fst l) -> tx_get i l <> None.
Proof. induction l as [|[j u] l IH]; [contradiction|]. cbn [tx_get map fst]. destruct (N.eqb_spec i j); [discriminate|]. intros [E | H]; [now symmetry in E|now apply IH]. Qed.
Lemma table_size l lo n : NoDup (map fst l) -> (forall j, tx_get j l <> None -> N.of_nat lo <= j < N.of_nat (lo + n)) -> (length l <= n)%nat.
Proof.
  intros Nd H. rewrite <- (map_length fst l), <- (seq_length n lo), <- (map_length N.of_nat (seq lo n)). apply NoDup_incl_length; [exact Nd|]. intros j Hj. apply tx_get_key, H in Hj.
  apply in_map_iff. exists (N.to_nat j). split; [apply N2Nat.id|]. apply in_seq. lia.
Qed.

(** * The invariant *)
(** The exchanges [dp] are over, the requests of [w] are complete and not or not wholly answered, those of [rq] are still to be
    completed. [v] is the transaction of the first exchange in [w] before its response began. *)
Inductive woven (cfg : config) (d : bool) (xs : list (message * response)) (Sq Sp : bytes) (s : st) : Prop :=
| woven_at dp w rq esq esp v Sw z :
    xs = dp ++ w ++ rq -> Sp = Sw ++ xtexts rq ->
    stream_events cfg 0 (map fst (dp ++ w)) esq -> reply_events 0 (map snd dp) esp ->
    paused cfg (N.of_nat (length (dp ++ w))) (qctx z s) (tr_of esq []) (map fst rq) Sq (view of_request s) ->
    rpaused (N.of_nat (length dp)) (pctx (N.of_nat (length dp)) v s) (tr_of esp []) w Sw (view of_response s) ->
    NoDup (map fst (s_txs s)) -> (forall j, N.of_nat (length (dp ++ w)) < j -> tx_get j (s_txs s) = None) ->
    (forall k x, nth_error w k = Some x -> exists t, cx_table (pctx (N.of_nat (length dp)) v s) (N.of_nat (length dp) + N.of_nat k) = Some t /\ holds (fst x) t) ->
    (forall k x, nth_error dp k = Some x -> over d (fun j => tx_get j (s_txs s)) (N.of_nat k) x) ->
    answers_follow (events s) -> s_other_at_end s = false ->
    z = (if d then length w else length (dp ++ w)) -> woven cfg d xs Sq Sp s.
Lemma woven_size (d : bool) (dp w : list (message * response)) l : NoDup (map fst l) -> (forall j, N.of_nat (length (dp ++ w)) < j -> tx_get j l = None) ->
  (forall k x, nth_error dp k = Some x -> over d (fun j => tx_get j l) (N.of_nat k) x) ->
  (length l <= S (if d then length w else length (dp ++ w)))%nat /\ (tx_get (N.of_nat (length (dp ++ w))) l = None -> (length l <= if d then length w else length (dp ++ w))%nat).
Proof.
  intros K F O. set (lo := if d then length dp else 0%nat). assert (Lo : forall j, tx_get j l <> None -> N.of_nat lo <= j).
  { intros j Hj. unfold lo. destruct d; [|lia]. destruct (N.lt_ge_cases j (N.of_nat (length dp))) as [L | L]; [|exact L]. exfalso. apply Hj.
    destruct (nth_error dp (N.to_nat j)) as [x|] eqn:E; [|apply nth_error_None in E; lia]. specialize (O _ _ E). unfold over in O. now rewrite N2Nat.id in O. }
  rewrite app_length in *. split.
  - apply (table_size l lo); [exact K|]. intros j Hj. split; [now apply Lo|]. destruct (N.lt_ge_cases (N.of_nat (length dp + length w)) j) as [L | L]; [now apply F in L|]. unfold lo. destruct d; lia.
  - intro Z. apply (table_size l lo); [exact K|]. intros j Hj. split; [now apply Lo|]. destruct (N.lt_ge_cases (N.of_nat (length dp + length w)) j) as [L | L]; [now apply F in L|].
    destruct (N.eq_dec j (N.of_nat (length dp + length w))) as [->|]; [contradiction|]. unfold lo. destruct d; lia.
Qed.
Lemma map_split {A B} (f : A -> B) l : forall a b, map f l = a ++ b -> exists l1 l2, l = l1 ++ l2 /\ map f l1 = a /\ map f l2 = b.
Proof.
  induction l as [|x l IH]; intros a b E; cbn in E.
  - symmetry in E. apply app_eq_nil in E as [-> ->]. now exists [], [].
  - destruct a as [|y a]; cbn in E; [exists [], (x :: l); now repeat split|]. injection E as <- E. destruct (IH a b E) as (l1 & l2 & -> & <- & <-). now exists (x :: l1), l2.
Qed.
Lemma nth_error_app3 {A} (a b : list A) k x : nth_error (a ++ b) k = Some x -> nth_error a k = Some x \/ exists k', k = (length a + k')%nat /\ nth_error b k' = Some x.
Proof.
  intro H. destruct (Nat.lt_ge_cases k (length a)) as [L | L]; [left; now rewrite nth_error_app1 in H|right]. rewrite nth_error_app2 in H by exact L. exists (k - length a)%nat. split; [lia|exact H].
Qed.
Lemma stream_events_app {cfg} i a ea b eb : stream_events cfg i a ea -> stream_events cfg (i + N.of_nat (length a)) b eb -> stream_events cfg i (a ++ b) (ea ++ eb).
Proof.
  intro H. revert b eb. induction H as [i|i m ms es es' H1 H2 IH]; intros b eb Hb; [cbn [length] in Hb; now rewrite N.add_0_r in Hb|].
  cbn [app]. rewrite <- app_assoc. constructor; [exact H1|]. apply IH. cbn [length] in Hb. now replace (i + 1 + N.of_nat (length ms)) with (i + N.of_nat (S (length ms))) by lia.
Qed.
Lemma reply_events_app i a ea b eb : reply_events i a ea -> reply_events (i + N.of_nat (length a)) b eb -> reply_events i (a ++ b) (ea ++ eb).
Proof.
  intro H. revert b eb. induction H as [i|i m ms es es' H1 H2 IH]; intros b eb Hb; [cbn [length] in Hb; now rewrite N.add_0_r in Hb|].
  cbn [app]. rewrite <- app_assoc. constructor; [exact H1|]. apply IH. cbn [length] in Hb. now replace (i + 1 + N.of_nat (length ms)) with (i + N.of_nat (S (length ms))) by lia.
Qed.
Lemma suffix_longer {A} (a b c d : list A) : a ++ b = c ++ d -> (length b <= length d)%nat -> exists m, d = m ++ b.
Proof. intros E L. apply app_split in E as [(m & E1 & E2) | (m & E1 & E2)]; [|now exists m]. subst b. rewrite app_length in L. destruct m; [now exists []|cbn in L; lia]. Qed.
Lemma asks_not_replies l : Forall (fun ev => of_request ev = true) l -> filter of_response l = [].
Proof. intro H. apply filter_no. eapply Forall_impl; [|exact H]. intros ev E. unfold of_response. now rewrite E. Qed.
Lemma replies_not_asks l : Forall (fun ev => of_response ev = true) l -> filter of_request l = [].
Proof. intro H. apply filter_no. eapply Forall_impl; [|exact H]. intros ev E. unfold of_response in E. now destruct (of_request ev). Qed.
Lemma answers_follow_more es D : answers_follow es -> (forall ev, In ev D -> of_response ev = true -> In (mk_ev HRequestComplete (ev_tx ev) PlNone) es) -> answers_follow (es ++ D).
Proof.
  intros H HD a ev b E R. apply app_split in E as [(m & E1 & E2) | (m & E1 & E2)].
  - subst a. apply in_or_app. left. apply HD; [|exact R]. rewrite E2. apply in_or_app. right. now left.
  - destruct m as [|x m]; cbn in E2.
    + rewrite app_nil_r in E1. subst a. apply HD; [|exact R]. rewrite <- E2. now left.
    + injection E2 as <- E2. apply (H a ev m E1 R).
Qed.
Definition pairs_good (xs : list (message * response)) : Prop := Forall (fun x => good_message (fst x) /\ good_response (fst x) (snd x)) xs.
Lemma weave_req e xs c Sq Sp s n' B n : yes e -> accepting e -> pairs_good xs -> Forall (line_limits e) xs -> N.of_nat (length xs) < 2 ^ 64 ->
  c <> [] -> clean_at (map fst xs) Sq -> (n' <= length xs)%nat -> (length (texts (map fst (skipn n' xs))) <= length Sq)%nat ->
  (if c_auto_destroy (e_cfg e) then xtexts xs = B ++ Sp /\ settled (map snd xs) n B /\ N.of_nat n' <= N.of_nat n + c_max_tx (e_cfg e) else N.of_nat n' <= c_max_tx (e_cfg e)) ->
  woven (e_cfg e) (c_auto_destroy (e_cfg e)) xs (c ++ Sq) Sp s ->
  exists s', run_op (OpReq (pd_slice c)) e s = (ROk (Some SsData), s') /\ woven (e_cfg e) (c_auto_destroy (e_cfg e)) xs Sq Sp s'.
Proof.
  intros Y A G Lim Ix Nc Cl Hn' Ln' Cap W. set (d := c_auto_destroy (e_cfg e)) in *.
  destruct W as [dp w rq esq esp v Sw z Ex Es Se Re P Q K Fr Hw Ho Af Oe Ez]. set (iq := N.of_nat (length (dp ++ w))) in *. set (ip := N.of_nat (length dp)) in *.
  destruct (in_message_suffix _ _ (paused_where _ _ _ _ _ _ P)) as (Y0 & EY).
  assert (Hn : (length (dp ++ w) < n')%nat).
  { destruct (Nat.lt_ge_cases (length (dp ++ w)) n') as [|L]; [assumption|exfalso]. rewrite Ex, app_assoc, skipn_app in Ln'. replace (n' - length (dp ++ w))%nat with 0%nat in Ln' by lia. cbn [skipn] in Ln'.
    rewrite map_app, texts_app, EY, !app_length in Ln'. apply nonempty_length in Nc. lia. }
  assert (Esk : skipn n' xs = skipn (n' - length (dp ++ w)) rq) by (rewrite Ex, app_assoc, skipn_app, (skipn_all2 (dp ++ w)) by lia; reflexivity).
  rewrite Esk in Ln'. set (k := (n' - length (dp ++ w))%nat) in *. set (rq1 := firstn k rq). set (rq2 := skipn k rq) in *. assert (Erq : rq = rq1 ++ rq2) by (symmetry; apply firstn_skipn).
  assert (L1 : length rq1 = k) by (apply firstn_length_le; unfold k; rewrite Ex, !app_length in Hn'; rewrite app_length in *; lia).
  assert (Hs : exists S2, Sq = S2 ++ texts (map fst rq2)).
  { apply (suffix_longer (texts (map fst rq1)) (texts (map fst rq2)) (Y0 ++ c) Sq); [|exact Ln']. rewrite <- texts_app, <- map_app, <- Erq, EY. apply app_assoc. }
  destruct Hs as [S2 ES2]. rewrite ES2, app_assoc, Erq, map_app in P. apply paused_less in P; [|destruct c; [congruence|discriminate]].
  assert (Gm : Forall good_message (map fst rq1)) by (apply Forall_map; rewrite Ex, Erq in G; unfold pairs_good in G; rewrite !Forall_app in G; eapply Forall_impl; [|apply G]; intros x [Gx _]; exact Gx).
  assert (Lm : Forall (line_limits e) rq1) by (rewrite Ex, Erq, !Forall_app in Lim; apply Lim).
  assert (R1 : room e iq (qctx z s) (map fst rq1)).
  { constructor; rewrite ?map_length, ?L1.
    - exact Gm.
    - apply Forall_map. eapply Forall_impl; [|exact Lm]. intros x (X1 & X2 & _). now split.
    - unfold iq, k. lia.
    - cbn [cx_size qctx]. rewrite Ez. destruct d.
      + destruct Cap as (C1 & C2 & C3). assert (n <= length dp)%nat.
        { rewrite Ex in C1, C2. apply (settled_done dp (w ++ rq) n B Sp C2 C1). rewrite Es. exact (rpaused_where _ _ _ _ _ _ (rpaused_more _ _ _ _ rq _ _ Q)). }
        unfold k. rewrite app_length in *. lia.
      + unfold k. lia.
    - exact Fr.
    - cbn. destruct (rpaused_facts _ _ _ _ _ _ Q) as (_ & _ & Lv & _). change (s_resp (view of_response s)) with (s_resp s) in Lv. intro Z. rewrite Z in Lv. destruct Lv; discriminate. }
  destruct (stream_calls e [c] Y iq _ (tr_of esq []) _ S2 (view of_request s) R1) as (s1 & done & ms' & i1 & C1 & tr1 & H1 & E1 & T1 & P1).
  { intros [E | []]. contradiction. }
  { intros [|x a] b Eab Na; [congruence|]. injection Eab as <- Eab. symmetry in Eab. apply app_eq_nil in Eab as [_ ->]. cbn [concat app].
    intros before m after y Em Ny Ey. apply (Cl (map fst (dp ++ w) ++ before) m (after ++ map fst rq2) y); [|exact Ny|].
    - rewrite Ex, Erq, app_assoc, map_app, (map_app fst rq1), Em, <- !app_assoc. reflexivity.
    - rewrite ES2, Ey, texts_app. now rewrite app_assoc. }
  { cbn [concat]. rewrite app_nil_r. exact P. }
  destruct (told_facts _ _ _ _ _ _ _ T1) as (Ei & (es1 & -> & Se1) & Tx & Ti). destruct (told_more _ _ _ _ _ _ _ T1) as (Tm & Tr & Ts).
  apply map_split in E1 as (a & b & Eab & Ea & Eb). subst done ms'. rewrite map_length in Ei.
  destruct (paused_trace _ _ _ _ _ _ P1) as (es2 & Etr & Fe2). rewrite <- tr_of_app, <- tr_of_app in Etr.
  destruct (view_run of_request _ _ _ _ _ _ A H1 Etr) as (s2 & D & H2 & Bs & Ev & ED & Fd & Vt).
  { repeat (apply Forall_app; split); [exact (asks_stream _ _ _ Se)|exact (asks_stream _ _ _ Se1)|exact Fe2]. }
  exists s2. split; [exact H2|]. destruct (bare_fields _ _ Bs) as (B1 & B2 & B3 & B4 & B5 & B6).
  destruct (paused_facts _ _ _ _ _ _ P1) as [O1 _]. rewrite Tr in O1. cbn [cx_rest qctx] in O1. unfold outside in O1. injection O1 as V1 V2 V3. rewrite <- B4 in V1. rewrite <- B2 in V2. rewrite <- B6 in V3.
  pose proof (paused_table _ _ _ _ _ _ P1) as Tb. rewrite <- B5 in Tb.
  pose proof (keys_run [OpReq (pd_slice c)] e s K) as K2. cbn [run_ops] in K2. unfold bind in K2. rewrite H2 in K2. cbn [snd] in K2. change (NoDup (map fst (s_txs s2))) in K2.
  assert (Ei' : i1 = N.of_nat (length (dp ++ w ++ a))) by (rewrite Ei; unfold iq; rewrite !app_length; lia).
  assert (Frs : forall j, N.of_nat (length (dp ++ w ++ a)) < j -> tx_get j (s_txs s2) = None).
  { intros j Hj. rewrite Tb by lia. rewrite Tm by lia. apply Fr. unfold iq. rewrite app_length in *. rewrite app_length in Hj. lia. }
  assert (Old : forall j, j < iq -> tx_get j (s_txs s2) = tx_get j (s_txs s)).
  { intros j Hj. rewrite Tb by lia. rewrite Ti by exact Hj. reflexivity. }
  assert (Ho2 : forall k x, nth_error dp k = Some x -> over d (fun j => tx_get j (s_txs s2)) (N.of_nat k) x).
  { intros k0 x Hk. specialize (Ho k0 x Hk). unfold over in *. rewrite Old; [exact Ho|]. assert (k0 < length dp)%nat by (apply nth_error_Some; congruence). unfold iq. rewrite app_length. lia. }
  destruct (woven_size d dp (w ++ a) (s_txs s2) K2 Frs Ho2) as [Z1 Z2].
  apply (woven_at _ d xs Sq Sp s2 dp (w ++ a) (b ++ rq2) (esq ++ es1) esp (match w with [] => tx_get ip (s_txs s2) | _ => v end) (Sw ++ xtexts a) (if d then length (w ++ a) else length (dp ++ w ++ a))).
  - rewrite Ex, Erq, Eab. now rewrite <- !app_assoc.
  - rewrite Es, Erq, Eab, <- !app_assoc, xtexts_app. reflexivity.
  - rewrite app_assoc, map_app. apply stream_events_app; [exact Se|]. rewrite map_length. exact Se1.
  - exact Re.
  - rewrite <- Ei', ES2, map_app. apply paused_more. rewrite tr_of_app. apply (paused_again i1 C1 _ _ _ s1 (if d then length (w ++ a) else length (dp ++ w ++ a)) (view of_request s2) P1).
    + exact B1.
    + exact B3.
    + exact Vt.
    + left. cbn. now rewrite B5.
    + exact Z1.
    + rewrite Ei'. exact Z2.
  - assert (Vp : s_trace (view of_response s2) = s_trace (view of_response s)).
    { cbn. rewrite Ev, filter_app, (asks_not_replies D Fd), app_nil_r. reflexivity. }
    apply rpaused_more. destruct w as [|x0 w].
    + apply rpaused_none in Q as [-> Q]. apply (ra_idle _ _ _ []). exact (rresting_again _ _ _ _ (view of_response s2) Q V2 V1 Vp K2).
    + pose proof (rpaused_again _ _ _ _ _ _ (view of_response s2) Q V2 V1 Vp K2) as Q2. cbn [cx_table pctx] in Q2. rewrite N.eqb_refl in Q2. apply Q2. cbn. apply Old. unfold iq, ip. rewrite app_length. cbn [length]. lia.
  - exact K2.
  - exact Frs.
  - intros k0 x Hk. cbn [cx_table pctx].
    assert (Na : forall k', nth_error a k' = Some x -> exists t, tx_get (iq + N.of_nat k') (s_txs s2) = Some t /\ holds (fst x) t).
    { intros k' Hk'. destruct (Tx k' (fst x)) as (t & Ht & Hh); [now apply map_nth_error|]. exists t. split; [|exact Hh]. rewrite Tb; [exact Ht|]. assert (k' < length a)%nat by (apply nth_error_Some; congruence). lia. }
    apply nth_error_app3 in Hk as [Hk | (k' & -> & Hk)].
    + destruct w as [|x0 w]; [destruct k0; discriminate|]. destruct (Hw k0 x Hk) as (t & Ht & Hh). exists t. split; [|exact Hh]. cbn [cx_table pctx] in Ht. destruct (_ =? _); [exact Ht|]. rewrite Old; [exact Ht|].
      assert (k0 < length (x0 :: w))%nat by (apply nth_error_Some; congruence). unfold iq, ip. rewrite app_length. lia.
    + destruct (Na k' Hk) as (t & Ht & Hh). exists t. split; [|exact Hh]. replace (iq + N.of_nat k') with (ip + N.of_nat (length w + k')) in Ht by (unfold iq, ip; rewrite app_length; lia).
      fold ip. destruct (N.eqb_spec (ip + N.of_nat (length w + k')) ip) as [E0|]; [|exact Ht]. destruct w; [|cbn [length] in E0; lia]. now rewrite E0 in Ht.
  - exact Ho2.
  - rewrite Ev. apply answers_follow_more; [exact Af|]. intros ev I R. rewrite Forall_forall in Fd. apply Fd in I. unfold of_response in R. rewrite I in R. discriminate R.
  - now rewrite V3.
  - reflexivity.
Qed.
Lemma weave_resp e xs c Sq Sp s B n : yes e -> accepting e -> pairs_good xs -> Forall (line_limits e) xs -> N.of_nat (length xs) < 2 ^ 64 ->
  c <> [] -> rclean_at xs Sp -> apart_at xs c Sp -> arrived (map fst xs) n B -> texts (map fst xs) = B ++ Sq -> (length (xtexts (skipn n xs)) <= length Sp)%nat ->
  woven (e_cfg e) (c_auto_destroy (e_cfg e)) xs Sq (c ++ Sp) s ->
  exists s', run_op (OpResp (pd_slice c)) e s = (ROk (Some SsData), s') /\ woven (e_cfg e) (c_auto_destroy (e_cfg e)) xs Sq Sp s'.
Proof.
  intros Y A G Lim Ix Nc Cl Ap Ar EB Ln W. set (d := c_auto_destroy (e_cfg e)) in *.
  destruct W as [dp w rq esq esp v Sw z Ex Es Se Re P Q K Fr Hw Ho Af Oe Ez]. set (iq := N.of_nat (length (dp ++ w))) in *. set (ip := N.of_nat (length dp)) in *.
  assert (Hn : (n <= length (dp ++ w))%nat).
  { rewrite Ex, app_assoc, map_app in Ar, EB. rewrite <- (map_length fst). exact (arrived_done _ _ _ _ _ Ar EB (paused_where _ _ _ _ _ _ P)). }
  assert (Lr : (length (xtexts rq) <= length Sp)%nat).
  { rewrite Ex, app_assoc, skipn_app in Ln. replace (n - length (dp ++ w))%nat with 0%nat in Ln by lia. cbn [skipn] in Ln. rewrite xtexts_app, app_length in Ln. lia. }
  destruct (suffix_longer _ _ _ _ (eq_sym Es) Lr) as [S2 ES2]. rewrite ES2, app_assoc in Es. apply app_inv_tail in Es. subst Sw.
  assert (Nw : w <> []) by (intros ->; apply rpaused_none in Q as [Q _]; destruct c; [congruence|discriminate]).
  assert (R1 : rroom e ip (pctx ip v s) w).
  { constructor.
    - rewrite Ex in G. unfold pairs_good in G. rewrite !Forall_app in G. apply G.
    - rewrite Ex, !Forall_app in Lim. destruct Lim as (_ & Lim & _). eapply Forall_impl; [|exact Lim]. intros x (_ & _ & Lx). exact Lx.
    - unfold ip. rewrite Ex, !app_length in Ix. lia.
    - exact Oe.
    - intros k0 x0 Hx. destruct (Hw k0 x0 Hx) as (t0 & Ht0 & Ho0). exists t0. split; [exact Ht0|exact (holds_awaits _ _ Ho0)]. }
  destruct (rstream_calls e [c] Y ip _ (tr_of esp []) _ S2 (view of_response s) R1) as (s1 & done & w' & i1 & C1 & tr1 & H1 & E1 & T1 & P1).
  { intros [E | []]. contradiction. }
  { intros [|x a] b Eab Na; [congruence|]. injection Eab as <- Eab. symmetry in Eab. apply app_eq_nil in Eab as [_ ->]. cbn [concat app].
    intros before m after y Em Ny Ey. apply (Cl (dp ++ before) m (after ++ rq) y); [|exact Ny|].
    - rewrite Ex, Em, <- !app_assoc. reflexivity.
    - rewrite ES2, Ey, xtexts_app. now rewrite app_assoc. }
  { intros a c0 b Eab before x after y tl Em Hb Ey Ny Et. destruct a as [|? [|? ?]]; [|discriminate Eab|discriminate Eab]. injection Eab as -> <-. cbn [concat app] in Et.
    apply (Ap (dp ++ before) x (after ++ rq) y tl); [|exact Hb|exact Ey|exact Ny|].
    - rewrite Ex, Em, <- !app_assoc. reflexivity.
    - rewrite ES2, app_assoc, Et, xtexts_app. reflexivity. }
  { cbn [concat]. rewrite app_nil_r. exact Q. }
  destruct (rtold_facts _ _ _ _ _ _ _ _ T1) as (Ei & (es1 & -> & Re1) & Tx & Ti & Tr & _). fold d in Tx.
  destruct (rpaused_trace _ _ _ _ _ _ P1) as (es2 & Etr & Fe2 & Ne2). rewrite <- tr_of_app, <- tr_of_app in Etr.
  pose proof (replies_stream _ _ _ Re) as Fr0. pose proof (replies_stream _ _ _ Re1) as Fr1.
  destruct (view_run of_response _ _ _ _ _ _ A H1 Etr) as (s2 & D & H2 & Bs & Ev & ED & Fd & Vt).
  { repeat (apply Forall_app; split); [eapply Forall_impl; [|exact Fr0]|eapply Forall_impl; [|exact Fr1]|eapply Forall_impl; [|exact Fe2]]; intros ev [Hev _]; exact Hev. }
  exists s2. split; [exact H2|]. destruct (bare_fields _ _ Bs) as (B1 & B2 & B3 & B4 & B5 & B6).
  destruct (rpaused_facts _ _ _ _ _ _ P1) as (O1 & _ & _ & Tb). rewrite Tr in O1. cbn [cx_rest pctx] in O1. unfold r_outside in O1. injection O1 as V1 V2 V3. rewrite <- B3 in V1. rewrite <- B1 in V2. rewrite <- B6 in V3.
  rewrite <- B5 in Tb.
  pose proof (keys_run [OpResp (pd_slice c)] e s K) as K2. cbn [run_ops] in K2. unfold bind in K2. rewrite H2 in K2. cbn [snd] in K2. change (NoDup (map fst (s_txs s2))) in K2.
  assert (Ei' : i1 = N.of_nat (length (dp ++ done))) by (rewrite Ei; unfold ip; rewrite !app_length; lia).
  assert (Eiq : iq = i1 + N.of_nat (length w')) by (rewrite Ei; unfold iq, ip; rewrite E1, !app_length; lia).
  assert (Lw : (0 < length w)%nat) by now apply nonempty_length.
  assert (Tp : forall j, ip < j -> cx_table (pctx ip v s) j = tx_get j (s_txs s)) by (intros j Hj; cbn; destruct (N.eqb_spec j ip); [lia|reflexivity]).
  assert (Np : ip < iq) by (unfold ip, iq; rewrite app_length; lia).
  assert (New : forall j, iq <= j -> same_or_new (tx_get j (s_txs s)) (tx_get j (s_txs s2)) /\ (iq < j -> tx_get j (s_txs s2) = tx_get j (s_txs s))).
  { intros j Hj. destruct (N.eq_dec j i1) as [->|Ne].
    - assert (w' = []) by (destruct w'; [reflexivity|cbn [length] in Eiq; lia]). subst w'. apply rpaused_none in P1 as [_ [_ _ _ _ _ _ _ D8 _ _ _]]. rewrite Ti in D8 by (right; lia). rewrite Tp in D8 by lia. rewrite <- B5 in D8. split.
      + destruct D8 as [[D8 _] | (D8 & D8' & _)]; [left; exact D8|right; now split].
      + cbn [length] in Eiq. lia.
    - rewrite Tb by exact Ne. rewrite Ti by (right; lia). rewrite Tp by lia. split; [now left|reflexivity]. }
  assert (Frs : forall j, N.of_nat (length ((dp ++ done) ++ w')) < j -> tx_get j (s_txs s2) = None).
  { intros j Hj. rewrite <- app_assoc, <- E1 in Hj. fold iq in Hj. destruct (New j) as [_ Hn2]; [lia|]. rewrite Hn2 by exact Hj. now apply Fr. }
  assert (Ho2 : forall k x, nth_error (dp ++ done) k = Some x -> over d (fun j => tx_get j (s_txs s2)) (N.of_nat k) x).
  { intros k0 x Hk. assert (Lk : (k0 < length (dp ++ done))%nat) by (apply nth_error_Some; congruence). apply nth_error_app3 in Hk as [Hk | (k' & -> & Hk)].
    - specialize (Ho k0 x Hk). unfold over in *. assert (k0 < length dp)%nat by (apply nth_error_Some; congruence). rewrite Tb by lia. rewrite Ti by (left; unfold ip; lia). cbn. destruct (N.eqb_spec (N.of_nat k0) ip); [unfold ip in *; lia|exact Ho].
    - specialize (Tx k' x Hk). unfold over. replace (N.of_nat (length dp + k')) with (ip + N.of_nat k') by (unfold ip; lia). assert (k' < length done)%nat by (apply nth_error_Some; congruence). rewrite Tb by lia. exact Tx. }
  assert (Edp : (dp ++ done) ++ w' = dp ++ w) by (rewrite E1; now rewrite <- app_assoc).
  destruct (woven_size d (dp ++ done) w' (s_txs s2) K2 Frs Ho2) as [Z1 Z2].
  apply (woven_at _ d xs Sq Sp s2 (dp ++ done) w' rq esq (esp ++ es1) (cx_table C1 i1) S2 (if d then length w' else length ((dp ++ done) ++ w'))).
  - rewrite Ex, E1. now rewrite <- !app_assoc.
  - exact ES2.
  - rewrite Edp. exact Se.
  - rewrite map_app. apply reply_events_app; [exact Re|]. rewrite map_length. exact Re1.
  - assert (Vq : s_trace (view of_request s2) = s_trace (view of_request s)).
    { cbn. rewrite Ev, filter_app, (replies_not_asks D Fd), app_nil_r. reflexivity. }
    rewrite Edp. fold iq. apply (paused_again iq _ _ _ _ (view of_request s) (if d then length w' else length (dp ++ w)) (view of_request s2) P).
    + exact V2.
    + exact V1.
    + exact Vq.
    + apply (New iq). lia.
    + rewrite <- Edp. exact Z1.
    + rewrite Edp in Z2. exact Z2.
  - rewrite <- Ei', tr_of_app. exact (rpaused_again i1 C1 _ _ _ s1 (view of_response s2) P1 B2 B4 Vt K2 (f_equal (tx_get i1) B5)).
  - exact K2.
  - exact Frs.
  - intros k0 x Hk. rewrite <- Ei'. cbn [cx_table pctx]. assert (Hk' : nth_error w (length done + k0) = Some x) by (rewrite E1, nth_error_app2 by lia; now replace (length done + k0 - length done)%nat with k0 by lia).
    destruct (Hw _ _ Hk') as (t & Ht & Hh). exists t. split; [|exact Hh]. replace (ip + N.of_nat (length done + k0)) with (i1 + N.of_nat k0) in Ht by lia. rewrite <- (Ti (i1 + N.of_nat k0)) in Ht by (right; lia).
    destruct (N.eqb_spec (i1 + N.of_nat k0) i1) as [E0 | E0]; [now rewrite E0 in Ht|]. rewrite Tb by exact E0. exact Ht.
  - exact Ho2.
  - rewrite Ev. apply answers_follow_more; [exact Af|]. intros ev I _.
    assert (Hc : forall k, k < iq -> In (mk_ev HRequestComplete k PlNone) (events s)).
    { intros k0 Hk. destruct (paused_trace _ _ _ _ _ _ P) as (es3 & Eq3 & _). rewrite <- tr_of_app in Eq3. cbn [s_trace view set_s_trace] in Eq3. apply tr_of_inj in Eq3.
      apply (proj1 (filter_In of_request _ (events s))). rewrite Eq3. apply in_or_app. left. apply (stream_completes _ _ _ Se). rewrite map_length. fold iq. lia. }
    apply Hc. destruct (rpaused_trace _ _ _ _ _ _ Q) as (es4 & Eq4 & _). rewrite <- tr_of_app in Eq4. cbn [s_trace view set_s_trace] in Eq4. apply tr_of_inj in Eq4. rewrite Eq4, <- !app_assoc in ED. apply app_inv_head in ED.
    assert (I2 : In ev (es1 ++ es2)) by (rewrite ED; apply in_or_app; now right). apply in_app_or in I2 as [I2 | I2].
    + rewrite Forall_forall in Fr1. apply Fr1 in I2 as [_ I2]. rewrite map_length in I2. lia.
    + assert (w' <> []) by (apply Ne2; intros ->; contradiction). rewrite Forall_forall in Fe2. apply Fe2 in I2 as [_ I2]. apply nonempty_length in H. lia.
  - now rewrite V3.
  - reflexivity.
Qed.

(** * Schedules *)
Lemma ups_app a b : ups (a ++ b) = ups a ++ ups b. Proof. apply flat_map_app. Qed.
Lemma downs_app a b : downs (a ++ b) = downs a ++ downs b. Proof. apply flat_map_app. Qed.
Lemma skipn_texts n (xs : list (message * response)) B S : texts (map fst xs) = B ++ S -> (length B <= length (texts (firstn n (map fst xs))))%nat -> (length (texts (map fst (skipn n xs))) <= length S)%nat.
Proof.
  intros E L. rewrite firstn_map in L. rewrite <- (firstn_skipn n xs), map_app, texts_app in E at 1. apply (f_equal (@length N)) in E. rewrite !app_length in E. lia.
Qed.
Lemma skipn_xtexts n xs B S : xtexts xs = B ++ S -> (length B <= length (rtexts (firstn n (map snd xs))))%nat -> (length (xtexts (skipn n xs)) <= length S)%nat.
Proof.
  intros E L. rewrite firstn_map in L. fold (xtexts (firstn n xs)) in L. rewrite <- (firstn_skipn n xs), xtexts_app in E at 1. apply (f_equal (@length N)) in E. rewrite !app_length in E. lia.
Qed.
Lemma weave_runs e xs l0 : yes e -> accepting e -> good_schedule xs l0 -> weave_fits e xs l0 -> forall l a s, l0 = a ++ l -> woven (e_cfg e) (c_auto_destroy (e_cfg e)) xs (concat (ups l)) (concat (downs l)) s ->
  exists s', run_ops (map segment_op l) e s = (ROk (map (fun _ => Some SsData) l), s') /\ woven (e_cfg e) (c_auto_destroy (e_cfg e)) xs [] [] s'.
Proof.
  intros Y A (G & Eu & Cu & Ed & Cd & Ad & Ne & Ca) (Lim & Ix & Cap). induction l as [|[sd c] l IH]; intros a s El W.
  - exists s. split; [reflexivity|exact W].
  - assert (Nc : c <> []) by (apply (Ne (sd, c)); rewrite El; apply in_or_app; right; now left).
    assert (El' : l0 = (a ++ [(sd, c)]) ++ l) by (rewrite El, <- app_assoc; reflexivity).
    enough (Hs : exists s1, run_op (segment_op (sd, c)) e s = (ROk (Some SsData), s1) /\ woven (e_cfg e) (c_auto_destroy (e_cfg e)) xs (concat (ups l)) (concat (downs l)) s1).
    { destruct Hs as (s1 & H1 & W1). destruct (IH _ s1 El' W1) as (s2 & H2 & W2). exists s2. split; [|exact W2]. cbn [map run_ops]. unfold bind at 1. rewrite H1. unfold bind at 1. rewrite H2. reflexivity. }
    pose proof (f_equal ups El) as Eul. pose proof (f_equal downs El) as Edl. rewrite ups_app in Eul. rewrite downs_app in Edl. rewrite Eul in Cu, Eu. rewrite Edl in Cd, Ad, Ed. rewrite concat_app in Eu, Ed.
    unfold segment_op. destruct sd; cbn [fst snd]; change (ups ((SReq, c) :: l)) with (c :: ups l) in *; change (downs ((SReq, c) :: l)) with (downs l) in *; change (ups ((SResp, c) :: l)) with (ups l) in *; change (downs ((SResp, c) :: l)) with (c :: downs l) in *; cbn [concat] in *.
    + assert (Hc : exists n' B n, (n' <= length xs)%nat /\ (length (texts (map fst (skipn n' xs))) <= length (concat (ups l)))%nat /\
        (if c_auto_destroy (e_cfg e) then xtexts xs = B ++ concat (downs l) /\ settled (map snd xs) n B /\ N.of_nat n' <= N.of_nat n + c_max_tx (e_cfg e) else N.of_nat n' <= c_max_tx (e_cfg e))).
      { destruct (c_auto_destroy (e_cfg e)).
        - destruct (Cap a c l El) as (n & k & C1 & C2 & C3). exists (Nat.min (n + k) (length xs)), (concat (downs a)), n. split; [lia|]. split.
          + assert (E2 : skipn (Nat.min (n + k) (length xs)) xs = skipn (n + k) xs) by (destruct (Nat.min_spec (n + k) (length xs)) as [[? ->] | [? ->]]; [reflexivity|now rewrite !skipn_all2 by lia]).
            rewrite E2. apply (skipn_texts _ _ (concat (ups a) ++ c)); [now rewrite <- Eu, <- app_assoc|exact C2].
          + split; [symmetry; exact Ed|]. split; [exact C1|lia].
        - exists (length xs), [], 0%nat. split; [lia|]. split; [rewrite skipn_all; cbn; lia|exact Cap]. }
      destruct Hc as (n' & B & n & C1 & C2 & C3). apply (weave_req e xs c _ _ s n' B n Y A G Lim Ix Nc); [|exact C1|exact C2|exact C3|exact W].
      intros before m after y Em Ny Ey. apply (Cu (ups a ++ [c]) (ups l) before m after y); [now rewrite <- app_assoc|exact Em|exact Ny|now rewrite app_nil_r].
    + destruct (Ca a c l El) as (n & C1 & C2). apply (weave_resp e xs c _ _ s (concat (ups a)) n Y A G Lim Ix Nc); [| |exact C1|now symmetry| |exact W].
      * intros before x after y Em Ny Ey. apply (Cd (downs a ++ [c]) (downs l) (map snd before) (snd x) (map snd after) y); [now rewrite <- app_assoc|rewrite Em, map_app; reflexivity|exact Ny|now rewrite app_nil_r].
      * intros before x after y tl Em Hb Ey Ny Et. apply (Ad (downs a) y tl (downs l) (map snd before) (snd x) (map snd after)); [now rewrite <- Ey|exact Ny|rewrite Em, map_app; reflexivity|exact Hb|now rewrite app_nil_r].
      * apply (skipn_xtexts _ _ (concat (downs a) ++ c)); [|exact C2]. unfold xtexts. now rewrite <- Ed, <- app_assoc.
Qed.
Lemma weave_parsed_yes e xs l : yes e -> accepting e -> good_schedule xs l -> weave_fits e xs l ->
  exists s, history e (scheduled l) = (ROk (all_more l), s) /\ stream_events (e_cfg e) 0 (map fst xs) (filter of_request (events s)) /\ reply_events 0 (map snd xs) (filter of_response (events s)) /\ answers_follow (events s) /\
    (forall k x, nth_error xs k = Some x -> over (c_auto_destroy (e_cfg e)) (fun i => tx_get i (s_txs s)) (N.of_nat k) x).
Proof.
  intros Y A G F. destruct (open_eval e) as (s0 & H0 & Q0).
  assert (W0 : woven (e_cfg e) (c_auto_destroy (e_cfg e)) xs (concat (ups l)) (concat (downs l)) s0).
  { destruct G as (_ & Eu & _ & Ed & _). rewrite Eu, Ed. injection H0 as <-.
    apply (woven_at _ _ _ _ _ _ [] [] xs [] [] None [] 0%nat); try reflexivity; try (constructor; fail).
    - apply pa_idle. constructor; try reflexivity; [right; reflexivity|right; left; reflexivity|right; split; [reflexivity|cbn; lia]].
    - apply (ra_idle _ _ _ []). constructor; try reflexivity; [right; reflexivity|right; reflexivity|left; split; [reflexivity|split; [constructor|cbn; lia]]|]. intros j Hj. cbn. now destruct (_ =? _).
    - intros [|k]; discriminate.
    - intros [|k]; discriminate.
    - intros [|? ?] ? ? E; discriminate E.
    - destruct (c_auto_destroy (e_cfg e)); reflexivity. }
  destruct (weave_runs e xs l Y A G F l [] s0 eq_refl W0) as (s & H & W). exists s.
  split; [unfold history, scheduled; cbn [run_ops]; unfold bind at 1; rewrite H0; unfold bind at 1; rewrite H; reflexivity|].
  destruct W as [dp w rq esq esp v Sw z Ex Es Se Re P Q K Fr Hw Ho Af Oe Ez]. apply paused_end in P as [Er P]. apply map_eq_nil in Er. subst rq. symmetry in Es. apply app_eq_nil in Es as [-> _]. apply rpaused_end in Q as [-> Q].
  rewrite !app_nil_r in *. subst dp. apply rs_trace in P. apply rr_trace in Q. cbn [s_trace view set_s_trace] in P, Q. apply tr_of_inj in P, Q. rewrite P, Q. repeat split; assumption.
Qed.
Lemma weave_parsed e xs l : accepting e -> good_schedule xs l -> weave_fits e xs l ->
  exists s, history e (scheduled l) = (ROk (all_more l), s) /\ stream_events (e_cfg e) 0 (map fst xs) (filter of_request (events s)) /\ reply_events 0 (map snd xs) (filter of_response (events s)) /\ answers_follow (events s) /\
    (forall k m r, nth_error xs k = Some (m, r) ->
      if c_auto_destroy (e_cfg e) then tx_get (N.of_nat k) (s_txs s) = None else exists t, tx_get (N.of_nat k) (s_txs s) = Some t /\ asked m t /\ answered r t).
Proof.
  intros A G F. destruct (weave_parsed_yes (mute e) xs l (yes_mute e) (accepting_mute e A) G F) as (s & H & Se & Re & Af & Tx).
  destruct (history_mute e (scheduled l) A) as [H1 H2]. rewrite H in H1, H2. cbn [fst snd] in H1, H2. apply similar_txs in H2 as [H2 H3].
  exists (snd (history e (scheduled l))). split; [rewrite <- H1; apply surjective_pairing|]. rewrite H3, H2. split; [now apply stream_events_mute|]. split; [exact Re|]. split; [exact Af|].
  intros k m r Hk. exact (Tx k (m, r) Hk).
Qed.
