(** Proofs for C78. *)
From Verif Require Import ProofsBase ProofsParsers ProofsBstr ProofsBytes ProofsLayers.
From Verif Require Import Base ModelUtil ModelBstr ModelHeaders ModelState ModelTx Spec SpecBytes SpecTx SpecDecomp SpecCoding ProofsTx.

Definition sepb (c : N) : bool := (c =? 44) || (c =? 32).
Lemma sepb_spec b : sepb b = true <-> separates b.
Proof. unfold sepb, separates. lia. Qed.
Lemma sepb_not b : sepb b = false <-> ~ separates b.
Proof. unfold sepb, separates. lia. Qed.
Definition full (w : bytes) : bool := negb (is_nil w).

(** ** The words of a value *)
Lemma split_word w r : Forall (fun b => ~ separates b) w -> (r = [] \/ exists b r', r = b :: r' /\ separates b) -> w <> [] ->
  filter full (split_on sepb (w ++ r)) = w :: filter full (split_on sepb r).
Proof.
  intros Hw Hr Nw. assert (Hs : split_on sepb w = [w]) by (apply split_on_none; eapply Forall_impl; [|exact Hw]; intros b Hb; now apply sepb_not).
  destruct Hr as [->|(b & r' & -> & Hb)].
  - rewrite app_nil_r, Hs. cbn [filter split_on]. unfold full at 1 2. destruct w; [congruence|]. reflexivity.
  - apply sepb_spec in Hb. rewrite (split_on_sep sepb b w r' Hb), Hs. change (b :: r') with ([] ++ b :: r'). rewrite (split_on_sep sepb b [] r' Hb).
    cbn [app filter split_on]. unfold full at 1. destruct w; [congruence|]. reflexivity.
Qed.
Lemma split_seps s r : Forall separates s -> filter full (split_on sepb (s ++ r)) = filter full (split_on sepb r).
Proof.
  induction 1 as [|b s Hb _ IH]; [reflexivity|]. apply sepb_spec in Hb. cbn [app]. change (b :: s ++ r) with ([] ++ b :: s ++ r).
  rewrite (split_on_sep sepb b [] (s ++ r) Hb). exact IH.
Qed.
Lemma words_split v ws : words v ws -> ws = filter full (split_on sepb v).
Proof.
  induction 1 as [v H|s w r ws Hs Nw Hw Hr _ IH].
  - rewrite <- (app_nil_r v), (split_seps v [] H). reflexivity.
  - rewrite (split_seps s _ Hs), (split_word w r Hw Hr Nw), IH. reflexivity.
Qed.
Lemma words_total v : exists ws, words v ws.
Proof.
  remember (length v) as n eqn:E. assert (L : (length v <= n)%nat) by lia. clear E. revert v L. induction n as [|n IH]; intros v L.
  - destruct v; [|cbn in L; lia]. exists []. constructor. constructor.
  - destruct (span sepb v) as [s v1] eqn:S1. destruct (span (fun c => negb (sepb c)) v1) as [w r] eqn:S2.
    apply span_spec in S1. apply span_spec in S2. destruct S1 as (-> & Hs & H1), S2 as (-> & Hw & H2).
    assert (Fs : Forall separates s) by (eapply Forall_impl; [|exact Hs]; intros b Hb; now apply sepb_spec).
    destruct w as [|b w].
    + cbn [app] in *. destruct r as [|c r].
      * exists []. rewrite app_nil_r. now constructor.
      * exfalso. specialize (H1 c r eq_refl). specialize (H2 c r eq_refl). destruct (sepb c); discriminate.
    + assert (Hr : r = [] \/ exists b r', r = b :: r' /\ separates b).
      { destruct r as [|c r]; [now left|]. right. exists c, r. split; [reflexivity|]. apply sepb_spec. specialize (H2 c r eq_refl). now destruct (sepb c). }
      destruct (IH r) as (ws & W). { rewrite !app_length in L. cbn in L. lia. }
      exists ((b :: w) :: ws). constructor; try assumption; try discriminate.
      eapply Forall_impl; [|exact Hw]. intros x Hx. apply sepb_not. now apply Bool.negb_true_iff.
Qed.
Lemma words_one v ws ws' : words v ws -> words v ws' -> ws = ws'.
Proof. intros A B. apply words_split in A, B. congruence. Qed.

(** ** What one word means *)
Lemma inside_spec w s : s2b s <> [] -> is_some (index_of_nocase w (s2b s)) = true <-> has_inside w s.
Proof.
  intro Ns. destruct (search_text w (s2b s)) as [A B]. unfold has_inside. destruct (index_of_nocase w (s2b s)) as [i|] eqn:E; cbn [is_some].
  - split; [|reflexivity]. intros _. exists i. now apply (A i).
  - split; [discriminate|]. intros (i & H). destruct B as [B _]. destruct (B eq_refl) as [C|C]; [congruence|]. now elim (C i).
Qed.
Lemma inside_not w s : s2b s <> [] -> is_some (index_of_nocase w (s2b s)) = false <-> ~ has_inside w s.
Proof. intro Ns. rewrite <- (inside_spec w s Ns). destruct (is_some _); split; congruence. Qed.
Definition opt_enc (c : cenc) : option cenc := match c with CeNone => None | c => Some c end.
Lemma usual_dec w : usual w \/ ~ usual w.
Proof. unfold usual. destruct (in_dec (list_eq_dec N.eq_dec) w (map s2b ["gzip"; "x-gzip"; "deflate"; "x-deflate"; "lzma"; "inflate"; "none"]%string)); tauto. Qed.
Lemma word_read w : means w (opt_enc (fst (token_encoding w))) /\
  (usual w /\ snd (token_encoding w) = [] \/ ~ usual w /\ snd (token_encoding w) = [warning "ABNORMAL_CE_HEADER"]).
Proof.
  unfold token_encoding. cbv zeta.
  destruct (is_some (index_of_nocase w (s2b "gzip"))) eqn:G; [|destruct (is_some (index_of_nocase w (s2b "deflate"))) eqn:D].
  - split; [cbn [fst opt_enc]; apply me_gzip; now apply inside_spec|]. cbn [snd].
    destruct (bytes_eqb w (s2b "gzip")) eqn:A; [|destruct (bytes_eqb w (s2b "x-gzip")) eqn:B]; cbn [orb negb warn_if].
    + left. split; [|reflexivity]. apply bytes_eqb_eq in A. left. now rewrite A.
    + left. split; [|reflexivity]. apply bytes_eqb_eq in B. right. left. now rewrite B.
    + right. split; [|reflexivity]. apply bytes_eqb_neq in A, B. intro U.
      destruct U as [U|[U|[U|[U|[U|[U|[U|[]]]]]]]]; try congruence; rewrite <- U in G; vm_compute in G; discriminate.
  - apply inside_not in G; [|discriminate]. split; [cbn [fst opt_enc]; apply me_deflate; [exact G|now apply inside_spec]|]. cbn [snd].
    destruct (bytes_eqb w (s2b "deflate")) eqn:A; [|destruct (bytes_eqb w (s2b "x-deflate")) eqn:B]; cbn [orb negb warn_if].
    + left. split; [|reflexivity]. apply bytes_eqb_eq in A. right. right. left. now rewrite A.
    + left. split; [|reflexivity]. apply bytes_eqb_eq in B. right. right. right. left. now rewrite B.
    + right. split; [|reflexivity]. apply bytes_eqb_neq in A, B. intro U.
      destruct U as [U|[U|[U|[U|[U|[U|[U|[]]]]]]]]; try congruence; rewrite <- U in D; vm_compute in D; try discriminate;
        apply G; apply inside_spec; try discriminate; rewrite <- U; reflexivity.
  - assert (G' := G). assert (D' := D). apply inside_not in G; [|discriminate]. apply inside_not in D; [|discriminate].
    destruct (bytes_eqb w (s2b "lzma")) eqn:Z; [|destruct (bytes_eqb w (s2b "inflate")) eqn:A; [|destruct (bytes_eqb w (s2b "none")) eqn:B]]; cbn [orb fst snd opt_enc].
    + apply bytes_eqb_eq in Z. split; [now apply me_lzma|]. left. split; [|reflexivity]. rewrite Z. do 4 right. now left.
    + apply bytes_eqb_eq in A. apply bytes_eqb_neq in Z. split; [now apply me_other|]. left. split; [|reflexivity]. rewrite A. do 5 right. now left.
    + apply bytes_eqb_eq in B. apply bytes_eqb_neq in Z. split; [now apply me_other|]. left. split; [|reflexivity]. rewrite B. do 6 right. now left.
    + apply bytes_eqb_neq in Z, A, B. split; [now apply me_other|]. right. split; [|reflexivity]. intro U.
      destruct U as [U|[U|[U|[U|[U|[U|[U|[]]]]]]]]; try congruence; rewrite <- U in G', D'; vm_compute in G', D'; discriminate.
Qed.
Lemma lzma_word w : fst (token_encoding w) = CeLzma <-> w = s2b "lzma".
Proof.
  split; [|now intros ->]. destruct (word_read w) as [M _]. intro E. rewrite E in M. now inversion M.
Qed.
Lemma means_one w o o' : means w o -> means w o' -> o = o'.
Proof.
  assert (Z1 : ~ has_inside (s2b "lzma") "gzip") by (apply inside_not; [discriminate|reflexivity]).
  assert (Z2 : ~ has_inside (s2b "lzma") "deflate") by (apply inside_not; [discriminate|reflexivity]).
  intros A B. inversion A; inversion B; subst; try reflexivity; tauto.
Qed.

(** ** The list *)
Lemma list_filter sd cfg l : forall n z d, encoding_list sd cfg n z l d = encoding_list sd cfg n z (filter full l) d.
Proof.
  induction l as [|v l IH]; intros n z d; [reflexivity|]. cbn [encoding_list filter]. unfold full at 1. destruct (is_nil v) eqn:E; cbn [negb]; [apply IH|].
  cbn [encoding_list]. rewrite E. destruct (over _ _); [reflexivity|]. destruct (token_encoding v) as [ce lg]. cbv zeta.
  destruct (_ && _); [reflexivity|]. now rewrite IH.
Qed.
Lemma over_spec limit n : over limit (N.of_nat n) = false <-> within limit n.
Proof. unfold over, within. destruct limit as [m|]; [|split; [intros _ m E; discriminate|reflexivity]]. split; [intros H m' E; injection E as <-; lia|intro H; specialize (H m eq_refl); lia]. Qed.
Lemma over_true limit n : over limit (N.of_nat n) = true <-> ~ within limit n.
Proof. rewrite <- over_spec. destruct (over _ _); split; congruence. Qed.
Lemma lzmas_app a b : lzmas (a ++ b) = (lzmas a + lzmas b)%nat.
Proof. induction a as [|x a IH]; [reflexivity|]. cbn [app lzmas]. rewrite IH. lia. Qed.
Lemma prepend_some ce d : ce <> CeNone -> layers_of (prepend_decompressor ce d) = ce :: layers_of d.
Proof. apply prepend_layers. Qed.
Lemma prepend_cep ce d : ce <> CeNone -> (layers_of d = [] <-> t_dec d = None) -> 
  t_cep (prepend_decompressor ce d) = match t_dec d with None => ce | Some _ => t_cep d end.
Proof. intros Nz _. destruct ce; try congruence; unfold prepend_decompressor; destruct (t_dec d); reflexivity. Qed.

Lemma list_reads sd cfg ws : (forall w, In w ws -> w <> []) -> forall x d,
  exists a b cs lg1 lg2, ws = a ++ b /\ (forall x1 w y, a = x1 ++ w :: y -> in_layers cfg (x ++ x1) /\ in_lzma sd cfg (x ++ x1) w) /\
    codings a cs /\ abnormal a lg1 /\ stops sd cfg (x ++ a) b lg2 /\
    snd (encoding_list sd cfg (N.of_nat (length x)) (N.of_nat (lzmas x)) ws d) = lg1 ++ lg2 /\
    let d' := fst (encoding_list sd cfg (N.of_nat (length x)) (N.of_nat (lzmas x)) ws d) in
    layers_of d' = rev cs ++ layers_of d /\ t_ce d' = t_ce d /\
    t_cep d' = match t_dec d with Some _ => t_cep d | None => hd (t_cep d) cs end.
Proof.
  induction ws as [|w ws IH]; intros Ne x d.
  - exists [], [], [], [], []. repeat split; try constructor; try (destruct x1; discriminate). cbn. destruct (t_dec d); reflexivity.
  - cbn [encoding_list]. assert (Nw : is_nil w = false) by (specialize (Ne w (or_introl eq_refl)); destruct w; [congruence|reflexivity]). rewrite Nw. cbv zeta.
    replace (N.of_nat (length x) + 1) with (N.of_nat (S (length x))) by lia.
    destruct (over (c_layer_limit cfg) (N.of_nat (S (length x)))) eqn:O1.
    { apply over_true in O1. exists [], (w :: ws), [], [], [warning "TOO_MANY_ENCODING_LAYERS"]. cbn [app snd fst rev hd].
      split; [reflexivity|]. split; [intros x1 w1 y E; destruct x1; discriminate|]. split; [constructor|]. split; [constructor|].
      split; [rewrite app_nil_r; now constructor|]. split; [reflexivity|]. repeat split. destruct (t_dec d); reflexivity. }
    apply over_spec in O1. destruct (word_read w) as [M U]. pose proof (lzma_word w) as LZ. destruct (token_encoding w) as [ce lg]. cbn [fst snd] in M, U, LZ.
    destruct (match ce with CeLzma => true | _ => false end) eqn:Z; cbn [andb].
    + assert (ce = CeLzma) by (destruct ce; congruence). subst ce. assert (W : w = s2b "lzma") by now apply LZ.
      assert (Lg : lg = []). { destruct U as [[_ U]|[U _]]; [exact U|]. elim U. rewrite W. do 4 right. now left. } subst lg.
      assert (Usual : usual w) by (rewrite W; do 4 right; now left).
      replace (N.of_nat (lzmas x) + 1) with (N.of_nat (S (lzmas x))) by lia.
      assert (Cnt : (match sd with SReq => N.of_nat (S (length x)) | SResp => N.of_nat (S (lzmas x)) end) = N.of_nat (match sd with SReq => S (length x) | SResp => S (lzmas x) end)) by now destruct sd.
      rewrite Cnt. destruct (over (c_lzma_layers cfg) (N.of_nat (match sd with SReq => S (length x) | SResp => S (lzmas x) end))) eqn:O2.
      * apply over_true in O2. exists [], (w :: ws), [], []. eexists. split; [reflexivity|]. split; [intros x1 w1 y E; destruct x1; discriminate|].
        split; [constructor|]. split; [constructor|]. cbn [app fst snd rev hd]. split; [rewrite app_nil_r; apply st_lzma; [exact O1|intro K; apply O2, K, W]|].
        split; [reflexivity|]. repeat split. destruct (t_dec d); reflexivity.
      * apply over_spec in O2. destruct (IH (fun v Hv => Ne v (or_intror Hv)) (x ++ [w]) (prepend_decompressor CeLzma d)) as (a & b & cs & lg1 & lg2 & E & T & C & A & St & L & D').
        assert (E1 : length (x ++ [w]) = S (length x)) by (rewrite app_length; cbn; lia).
        assert (E2 : lzmas (x ++ [w]) = S (lzmas x)) by (rewrite lzmas_app; cbn [lzmas]; rewrite W, bytes_eqb_refl; lia).
        rewrite E1, E2 in L, D'. destruct (encoding_list sd cfg _ _ ws (prepend_decompressor CeLzma d)) as [d2 l2]. cbn [fst snd] in L, D' |- *.
        exists (w :: a), b, (CeLzma :: cs), lg1, lg2. split; [now rewrite E|]. split.
        { intros x1 w1 y E3. destruct x1 as [|x0 x1]; injection E3 as -> E3.
          - rewrite app_nil_r. split; [exact O1|]. intros _. exact O2.
          - replace (x ++ x0 :: x1) with ((x ++ [x0]) ++ x1) by (rewrite <- app_assoc; reflexivity). now apply (T x1 w1 y). }
        split; [constructor; [exact M|exact C]|]. split; [now constructor|]. split; [rewrite <- app_assoc in St; exact St|]. split; [exact L|].
        destruct D' as (D1 & D2 & D3). rewrite (prepend_some CeLzma d) in D1 by discriminate. cbn [rev hd]. rewrite <- app_assoc. split; [exact D1|].
        split; [rewrite D2; unfold prepend_decompressor; destruct (t_dec d); reflexivity|]. rewrite D3. unfold prepend_decompressor. destruct (t_dec d); reflexivity.
    + assert (Nz : w <> s2b "lzma") by (intro W; apply LZ in W; subst ce; discriminate).
      destruct (IH (fun v Hv => Ne v (or_intror Hv)) (x ++ [w]) (prepend_decompressor ce d)) as (a & b & cs & lg1 & lg2 & E & T & C & A & St & L & D').
      assert (E1 : length (x ++ [w]) = S (length x)) by (rewrite app_length; cbn; lia).
      assert (E2 : lzmas (x ++ [w]) = lzmas x) by (rewrite lzmas_app; cbn [lzmas]; apply bytes_eqb_neq in Nz; rewrite Nz; lia).
      rewrite E1, E2 in L, D'. destruct (encoding_list sd cfg _ _ ws (prepend_decompressor ce d)) as [d2 l2]. cbn [fst snd] in L, D' |- *.
      exists (w :: a), b, (match opt_enc ce with Some c => c :: cs | None => cs end), (lg ++ lg1), lg2. split; [now rewrite E|]. split.
      { intros x1 w1 y E3. destruct x1 as [|x0 x1]; injection E3 as -> E3.
        - rewrite app_nil_r. split; [exact O1|]. intro W. congruence.
        - replace (x ++ x0 :: x1) with ((x ++ [x0]) ++ x1) by (rewrite <- app_assoc; reflexivity). now apply (T x1 w1 y). }
      split; [destruct (opt_enc ce); now constructor|].
      split; [destruct U as [[U ->]|[U ->]]; [now constructor|cbn [app]; now constructor]|].
      split; [rewrite <- app_assoc in St; exact St|]. split; [rewrite L, app_assoc; reflexivity|].
      destruct D' as (D1 & D2 & D3). destruct (opt_enc ce) as [c|] eqn:OE.
      * assert (ce = c /\ ce <> CeNone) as [-> Nc] by (destruct ce; cbn in OE; split; congruence). rewrite (prepend_some c d Nc) in D1. cbn [rev hd]. rewrite <- app_assoc. split; [exact D1|].
        split; [rewrite D2; unfold prepend_decompressor; destruct c, (t_dec d); reflexivity|]. rewrite D3. unfold prepend_decompressor. destruct c; try congruence; destruct (t_dec d); reflexivity.
      * assert (ce = CeNone) as -> by (destruct ce; cbn in OE; congruence). split; [exact D1|]. split; [exact D2|exact D3].
Qed.

(** ** The whole value *)
Lemma is_word_spec v s : is_eq (cmp_nocase_nozero v (s2b s)) = true <-> is_word v s.
Proof. unfold is_word. destruct (eq_text v (s2b s)) as [_ H]. rewrite <- H. reflexivity. Qed.
Lemma is_word_not v s : is_eq (cmp_nocase_nozero v (s2b s)) = false <-> ~ is_word v s.
Proof. rewrite <- is_word_spec. destruct (is_eq _); split; congruence. Qed.
Lemma fast_read v : alone v (opt_enc (fst (fast_encoding v))) /\ snd (fast_encoding v) = false \/
  (forall o, ~ alone v o) /\ fast_encoding v = (CeNone, true).
Proof.
  unfold fast_encoding. cbv zeta.
  destruct (is_eq (cmp_nocase_nozero v (s2b "gzip"))) eqn:A1; [left; split; [constructor; left; now apply is_word_spec|reflexivity]|].
  destruct (is_eq (cmp_nocase_nozero v (s2b "x-gzip"))) eqn:A2; [left; split; [constructor; right; now apply is_word_spec|reflexivity]|].
  destruct (is_eq (cmp_nocase_nozero v (s2b "deflate"))) eqn:A3; [left; split; [constructor; left; now apply is_word_spec|reflexivity]|].
  destruct (is_eq (cmp_nocase_nozero v (s2b "x-deflate"))) eqn:A4; [left; split; [constructor; right; now apply is_word_spec|reflexivity]|].
  destruct (is_eq (cmp_nocase_nozero v (s2b "lzma"))) eqn:A5; [left; split; [constructor; now apply is_word_spec|reflexivity]|].
  destruct (is_eq (cmp_nocase_nozero v (s2b "inflate"))) eqn:A6; [left; split; [constructor; left; now apply is_word_spec|reflexivity]|].
  destruct (is_eq (cmp_nocase_nozero v (s2b "none"))) eqn:A7; [left; split; [constructor; right; now apply is_word_spec|reflexivity]|].
  apply is_word_not in A1, A2, A3, A4, A5, A6, A7. right. split; [|reflexivity]. intros o K. inversion K; tauto.
Qed.
Lemma words_differ v s s' : is_word v s -> is_word v s' -> name_eq (s2b s) (s2b s').
Proof.
  unfold is_word, name_eq. intros A. revert s'. generalize (s2b s) A. clear. intros m A s'. generalize (s2b s'). intros n B. revert n B.
  induction A as [|x y l m H _ IH]; intros n B; inversion B; subst; constructor; [|now apply IH]. unfold letter_eq in *. lia.
Qed.
Lemma alone_one v o o' : alone v o -> alone v o' -> o = o'.
Proof.
  intros A B. inversion A as [H|H|H|H]; inversion B as [K|K|K|K]; subst; try reflexivity; exfalso;
    repeat match goal with X : _ \/ _ |- _ => destruct X as [X|X] end;
    pose proof (words_differ _ _ _ H K) as E; vm_compute in E;
    repeat (match goal with X : Forall2 _ (_ :: _) _ |- _ => inversion X; clear X; subst end);
    repeat match goal with X : letter_eq _ _ |- _ => unfold letter_eq in X end; try lia;
    try match goal with X : Forall2 _ [] (_ :: _) |- _ => inversion X end.
Qed.
Lemma codings_one a cs cs' : codings a cs -> codings a cs' -> cs = cs'.
Proof.
  intro A. revert cs'. induction A as [|w a c cs M _ IH|w a cs M _ IH]; intros cs' B; inversion B; subst; try reflexivity;
    match goal with X : means w ?p, Y : means w ?q |- _ => pose proof (means_one w p q X Y) as E end; try discriminate.
  - injection E as <-. f_equal. now apply IH.
  - now apply IH.
Qed.
Lemma abnormal_one a l l' : abnormal a l -> abnormal a l' -> l = l'.
Proof.
  intro A. revert l'. induction A as [|w a l U _ IH|w a l U _ IH]; intros l' B; inversion B; subst; try reflexivity; try tauto.
  - now apply IH.
  - f_equal. now apply IH.
Qed.
Lemma taken_one sd cfg ws a a' l l' : taken sd cfg ws a l -> taken sd cfg ws a' l' -> a = a' /\ l = l'.
Proof.
  assert (Pre : forall a b a' b' lg, a ++ b = a' ++ b' -> (length a < length a')%nat -> stops sd cfg a b lg ->
    (forall x w y, a' = x ++ w :: y -> in_layers cfg x /\ in_lzma sd cfg x w) -> False).
  { intros x b x' b' lg E L St T. assert (E' : exists w y, x' = x ++ w :: y /\ exists b2, b = w :: b2).
    { clear T St. revert x' E L. clear. induction x as [|c x IH]; intros x' E L.
      - destruct x' as [|w y]; [cbn in L; lia|]. cbn in E. exists w, y. split; [reflexivity|]. now exists (y ++ b').
      - destruct x' as [|c' x']; [cbn in L; lia|]. injection E as -> E. destruct (IH x' E ltac:(cbn in L; lia)) as (w & y & -> & K). now exists w, y. }
    destruct E' as (w & y & -> & b2 & ->). destruct (T x w y eq_refl). inversion St; subst; tauto. }
  intros (b & l1 & l2 & E & T & A & St & ->) (b' & l1' & l2' & E' & T' & A' & St' & ->). subst ws.
  assert (L : length a = length a').
  { destruct (Nat.lt_trichotomy (length a) (length a')) as [H|[H|H]]; [|exact H|]; exfalso.
    - now apply (Pre a b a' b' l2).
    - now apply (Pre a' b' a b l2'). }
  destruct (app_inv_length a b a' b' L E') as [<- <-]. split; [reflexivity|]. rewrite (abnormal_one a l1 l1' A A'). f_equal.
  inversion St; inversion St'; subst; try reflexivity; try discriminate; try tauto.
Qed.
Lemma value_read sd cfg d h : t_dec d = None -> the_header (t_headers d) (s2b "content-encoding") h ->
  let d' := fst (initialize_decompressors sd cfg d) in let lg := snd (initialize_decompressors sd cfg d) in
  (exists o, alone (hd_value h) o /\ t_ce d' = match o with Some c => c | None => CeNone end /\ lg = [] /\
     layers_of d' = match o with Some c => if decompression_enabled sd cfg then [c] else [] | None => [] end) \/
  (forall o, ~ alone (hd_value h) o) /\ t_ce d' = CeNone /\
     (decompression_enabled sd cfg = false /\ layers_of d' = [] /\ lg = [] \/
      decompression_enabled sd cfg = true /\ exists ws a cs, words (hd_value h) ws /\ taken sd cfg ws a lg /\ codings a cs /\ layers_of d' = rev cs).
Proof.
  intros Hd Hh. apply get_the_header in Hh. unfold initialize_decompressors. rewrite Hh. destruct (fast_read (hd_value h)) as [[A B]|[A B]].
  - left. destruct (fast_encoding (hd_value h)) as [ce sp]. cbn [fst snd] in A, B. subst sp. exists (opt_enc ce). split; [exact A|].
    rewrite Bool.andb_false_r. cbv zeta. destruct (decompression_enabled sd cfg).
    + destruct ce; inversion A; cbn [opt_enc fst snd]; unfold prepend_decompressor, layers_of; cbn [t_dec set_t_cep set_t_ce]; rewrite Hd; repeat split; reflexivity.
    + cbn [fst snd]. unfold layers_of. cbn [t_dec t_ce set_t_cep set_t_ce]. rewrite Hd. destruct ce; inversion A; repeat split; reflexivity.
  - right. split; [exact A|]. rewrite B. cbv zeta. destruct (decompression_enabled sd cfg) eqn:En; cbn [andb].
    + change (fun c : N => (c =? 44) || (c =? 32)) with sepb. rewrite list_filter.
      destruct (words_total (hd_value h)) as (ws & W). rewrite <- (words_split _ _ W).
      assert (Ne : forall w, In w ws -> w <> []).
      { rewrite (words_split _ _ W). intros w Hw. apply filter_In in Hw. destruct Hw as [_ Hw]. intros ->. discriminate. }
      destruct (list_reads sd cfg ws Ne [] (set_t_cep CeNone (set_t_ce CeNone d))) as (a & b & cs & lg1 & lg2 & E & T & C & Ab & St & L & D1 & D2 & D3).
      change (N.of_nat (length (@nil bytes))) with 0 in *. change (N.of_nat (lzmas [])) with 0 in *. split; [exact D2|]. right. split; [reflexivity|].
      exists ws, a, cs. split; [exact W|]. split; [exists b, lg1, lg2; repeat split; try assumption; now apply (T x w y)|]. split; [exact C|].
      rewrite D1. unfold layers_of. cbn [t_dec set_t_cep set_t_ce]. rewrite Hd. apply app_nil_r.
    + cbn [fst snd]. split; [reflexivity|]. left. unfold layers_of. cbn [t_dec set_t_cep set_t_ce]. rewrite Hd. repeat split; reflexivity.
Qed.
Lemma value_absent sd cfg d : t_dec d = None -> lacks (t_headers d) (s2b "content-encoding") ->
  let d' := fst (initialize_decompressors sd cfg d) in
  t_ce d' = CeNone /\ layers_of d' = [] /\ snd (initialize_decompressors sd cfg d) = [].
Proof.
  intros Hd Hl. apply get_lacks in Hl. unfold initialize_decompressors. rewrite Hl. cbv zeta. cbn [fst snd].
  assert (E : (if decompression_enabled sd cfg then CeNone else CeNone) = CeNone) by (destruct (decompression_enabled sd cfg); reflexivity). rewrite E. cbn [fst snd].
  unfold layers_of. cbn [t_dec t_ce set_t_cep set_t_ce]. rewrite Hd. repeat split; reflexivity.
Qed.
Lemma reading_one v : (exists ws, words v ws) /\ (forall ws ws', words v ws -> words v ws' -> ws = ws') /\ (forall o o', alone v o -> alone v o' -> o = o') /\
  (forall sd cfg ws a a' l l', taken sd cfg ws a l -> taken sd cfg ws a' l' -> a = a' /\ l = l') /\
  (forall a cs cs', codings a cs -> codings a cs' -> cs = cs').
Proof. split; [apply words_total|]. split; [apply words_one|]. split; [apply alone_one|]. split; [apply taken_one|apply codings_one]. Qed.
Definition ce_field (v : string) : txdir := set_t_headers [mk_header (s2b "Content-Encoding") (s2b v) 0] txdir_new.
Lemma ce_field_has v : t_dec (ce_field v) = None /\ the_header (t_headers (ce_field v)) (s2b "content-encoding") (mk_header (s2b "Content-Encoding") (s2b v) 0).
Proof. split; [reflexivity|]. unfold the_header. apply (proj1 (header_lookup_first_match _ _)). reflexivity. Qed.
Lemma idle_words : exists d h, t_dec d = None /\ the_header (t_headers d) (s2b "content-encoding") h /\
  hd_value h = s2b "identity, identity, gzip" /\ layers_of (fst (initialize_decompressors SResp config_default d)) = [].
Proof. eexists (ce_field _), _. destruct (ce_field_has "identity, identity, gzip") as [A B]. split; [exact A|]. split; [exact B|]. split; [reflexivity|]. vm_compute. reflexivity. Qed.
Lemma lzma_words : exists cfg, c_lzma_layers cfg = Some 1 /\
  (forall sd, layers_of (fst (initialize_decompressors sd cfg (ce_field "LZMA"))) = [CeLzma]) /\
  (forall sd, layers_of (fst (initialize_decompressors sd cfg (ce_field "LZMA, gzip"))) = [CeGzip]) /\
  layers_of (fst (initialize_decompressors SReq cfg (ce_field "gzip, lzma"))) = [CeGzip] /\
  layers_of (fst (initialize_decompressors SResp cfg (ce_field "gzip, lzma"))) = [CeLzma; CeGzip].
Proof.
  exists (set_c_lzma_layers (Some 1) (set_c_req_decomp true config_default)). split; [reflexivity|].
  split; [intros []; vm_compute; reflexivity|]. split; [intros []; vm_compute; reflexivity|]. split; vm_compute; reflexivity.
Qed.
