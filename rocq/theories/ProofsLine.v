(** Request lines and status lines are read exactly (C74, C75). *)
From Verif Require Import Base Spec SpecTx SpecLine ModelUtil ModelParsers ModelUrl ModelState ModelTx.
From Verif Require Import ProofsBase ProofsBstr ProofsParsers.

Lemma is_space_no x : negb (is_space x) = true <-> ~ c_space x.
Proof. rewrite <- is_space_spec. destruct (is_space x); cbn; split; congruence. Qed.
Lemma nonzero_spec x : negb (x =? 0) = true <-> x <> 0.
Proof. destruct (N.eqb_spec x 0); cbn; split; congruence. Qed.
Lemma is_nil_nothing (b : bytes) : is_nil b = nothing b. Proof. now destruct b. Qed.
Lemma version_named p : names_version p (fst (parse_protocol p)).
Proof.
  destruct (parse_protocol_exact p) as (A & B & C & D). pose proof (parse_protocol_range p) as R. cbv zeta in R. unfold names_version.
  destruct R as [R|[R|[R|R]]]; rewrite R; [now apply D|now apply A|now apply B|now apply C].
Qed.
Lemma method_named m : names_method m (method_new m).
Proof.
  unfold names_method, method_new. destruct (existsb _ known_methods) eqn:E.
  - left. split; [|reflexivity]. apply existsb_exists in E. destruct E as (x & I & Q). apply bytes_eqb_eq in Q. now subst.
  - right. split; [|reflexivity]. intro I. assert (X : existsb (bytes_eqb m) known_methods = true) by (apply existsb_exists; exists m; split; [exact I|now apply bytes_eqb_eq]). congruence.
Qed.

(** * Splitting *)
Lemma trims_length ws l m : trims_to ws l m -> (length m <= length l)%nat.
Proof. intros (a & b & -> & _). rewrite !app_length. lia. Qed.
Lemma split_sep (p : N -> bool) (P : N -> Prop) rest rv : (forall x, p x = true <-> P x) -> existsb p rest = true ->
  exists a x b, rest = a ++ x :: b /\ P x /\ Forall (fun c => ~ P c) (if rv : bool then b else a) /\ split_on_predicate rest rv true p = (trimmed a, trimmed b).
Proof.
  intros HP E. assert (NF : ~ Forall (fun x => p x = false) rest).
  { intro F. apply existsb_exists in E. destruct E as (x & I & Q). rewrite Forall_forall in F. specialize (F _ I). cbv beta in F. congruence. }
  assert (FA : forall l, Forall (fun x => p x = false) l -> Forall (fun c => ~ P c) l) by (intro l; apply Forall_impl; intros x Q Z; apply HP in Z; congruence).
  unfold split_on_predicate. destruct rv.
  - destruct (split_last p rest) as [[a b]|] eqn:S; [|apply split_last_None in S; contradiction].
    apply split_last_Some in S. destruct S as (x & Px & -> & F). exists a, x, b. split; [reflexivity|]. split; [now apply HP|]. split; [now apply FA|reflexivity].
  - destruct (split_first p rest) as [a [b|]] eqn:S; [|apply split_first_None in S; destruct S; contradiction].
    apply split_first_Some in S. destruct S as (x & Px & -> & F). exists a, x, b. split; [reflexivity|]. split; [now apply HP|]. split; [now apply FA|reflexivity].
Qed.
Lemma split_nosep (p : N -> bool) rest rv : existsb p rest = false -> split_on_predicate rest rv true p = (trimmed rest, trimmed []).
Proof.
  intro E. assert (F : Forall (fun x => p x = false) rest).
  { apply Forall_forall. intros x I. destruct (p x) eqn:Q; [|reflexivity]. assert (existsb p rest = true) by (apply existsb_exists; eauto). congruence. }
  unfold split_on_predicate. destruct rv.
  - now rewrite (proj2 (split_last_None p rest) F).
  - destruct (split_first p rest) as [a [b|]] eqn:S.
    + apply split_first_Some in S. destruct S as (x & Px & -> & _). apply Forall_app in F. destruct F as [_ F]. inversion F. congruence.
    + apply split_first_None in S. destruct S as [-> _]. reflexivity.
Qed.
Lemma trims_self ws l m : trims_to ws l m -> trims_to ws m m.
Proof. intros (a & b & -> & _ & _ & A & B). exists [], []. rewrite app_nil_r. split; [reflexivity|]. split; [constructor|]. split; [constructor|]. split; assumption. Qed.
Lemma trimmed_trims l m : trims_to c_space l m -> trimmed m = m.
Proof. intro H. eapply trims_to_unique; [apply trimmed_spec|exact (trims_self _ _ _ H)]. Qed.

Definition split_rest (spaces : bool) (rest : bytes) : (bytes * bytes) :=
  let '(uri1, proto1) := split_on_predicate rest spaces true (fun c => c =? 32) in
  let retry := (length uri1 =? length rest)%nat && existsb is_space uri1 in
  if retry then split_on_predicate rest spaces true is_space else (uri1, proto1).
Lemma split_rest_spec spaces l rest : trims_to c_space l rest -> target_and_protocol spaces rest (fst (split_rest spaces rest)) (snd (split_rest spaces rest)).
Proof.
  intro T. unfold split_rest. assert (S32 : forall x, (x =? 32) = true <-> 32 = x) by (intro; rewrite N.eqb_eq; split; congruence).
  destruct (existsb (fun c => c =? 32) rest) eqn:E.
  - destruct (split_sep _ (eq 32) rest spaces S32 E) as (a & x & b & Q & X & F & ->). subst x.
    replace (length (trimmed a) =? length rest)%nat with false.
    2:{ symmetry. apply Nat.eqb_neq. pose proof (trims_length _ _ _ (trimmed_spec a)). rewrite Q, app_length. cbn [length]. lia. }
    cbn [andb fst snd]. eapply tp_both with (sep := eq 32); try eassumption; try apply trimmed_spec; [|reflexivity]. left. split; [|reflexivity]. rewrite Q. apply in_elt.
  - rewrite (split_nosep _ _ spaces E), (trimmed_trims _ _ T), Nat.eqb_refl. cbn [andb].
    assert (N32 : ~ In 32 rest) by (intro I; assert (X : existsb (fun c => c =? 32) rest = true) by (apply existsb_exists; exists 32; split; [exact I|reflexivity]); congruence).
    destruct (existsb is_space rest) eqn:E2.
    + destruct (split_sep _ c_space rest spaces is_space_spec E2) as (a & x & b & Q & X & F & ->). cbn [fst snd].
      eapply tp_both with (sep := c_space); try eassumption; try apply trimmed_spec. right. auto.
    + cbn [fst snd]. apply tp_alone. apply Forall_forall. intros x I X. apply is_space_spec in X.
      assert (existsb is_space rest = true) by (apply existsb_exists; eauto). congruence.
Qed.
Lemma cut_unique (P : N -> Prop) a x b a' x' b' : P x -> P x' -> a ++ x :: b = a' ++ x' :: b' ->
  Forall (fun c => ~ P c) a -> Forall (fun c => ~ P c) a' -> a = a' /\ x = x' /\ b = b'.
Proof.
  intros X X' E F F'.
  assert (M : forall (u : bytes) y v, P y -> Forall (fun c => ~ P c) u -> max_run (fun c => ~ P c) (u ++ y :: v) u (y :: v)) by (intros u y v Y U; split; [reflexivity|]; split; [exact U|]; intros z m [= <- _] Z; now apply Z).
  pose proof (M _ _ b X F) as A. rewrite E in A. destruct (max_run_unique _ _ _ _ _ _ A (M _ _ b' X' F')) as [-> [= -> ->]]. auto.
Qed.
Lemma cut_last_unique (P : N -> Prop) a x b a' x' b' : P x -> P x' -> a ++ x :: b = a' ++ x' :: b' ->
  Forall (fun c => ~ P c) b -> Forall (fun c => ~ P c) b' -> a = a' /\ x = x' /\ b = b'.
Proof.
  intros X X' E F F'. apply (f_equal (@rev N)) in E. rewrite !rev_app_distr in E. cbn [rev] in E. rewrite <- !app_assoc in E. cbn [app] in E.
  destruct (cut_unique P _ _ _ _ _ _ X X' E) as (A & B & C); [now apply Forall_rev|now apply Forall_rev|].
  apply (f_equal (@rev N)) in A, C. rewrite !rev_involutive in A, C. auto.
Qed.
Lemma target_unique spaces rest t p t' p' : target_and_protocol spaces rest t p -> target_and_protocol spaces rest t' p' -> t = t' /\ p = p'.
Proof.
  intros H H'. destruct H as [F|sep a x b t p S Q X F Ta Tb]; destruct H' as [F'|sep' a' x' b' t' p' S' Q' X' F' Ta' Tb'].
  - auto.
  - exfalso. subst rest. rewrite Forall_forall in F. apply (F x'); [apply in_elt|]. destruct S' as [[_ ->]|[_ ->]]; [subst x'; left; left; reflexivity|exact X'].
  - exfalso. subst rest. rewrite Forall_forall in F'. apply (F' x); [apply in_elt|]. destruct S as [[_ ->]|[_ ->]]; [subst x; left; left; reflexivity|exact X].
  - assert (sep = sep') as <- by (destruct S as [[? ->]|[? ->]], S' as [[? ->]|[? ->]]; tauto).
    rewrite Q in Q'. assert (a = a' /\ x = x' /\ b = b') as (<- & _ & <-).
    { destruct spaces; [eapply cut_last_unique|eapply cut_unique]; eassumption. }
    split; eapply trims_to_unique; eassumption.
Qed.

(** * Request lines *)
Definition line_data (c : config) (line : bytes) : bytes :=
  match c_pers c with APACHE_2 => fst (span (fun c => negb (c =? 0)) line) | _ => line end.
Definition words_of (c : config) (line : bytes) : request_words :=
  let '(ls, r1) := span is_space (line_data c line) in
  let '(m, r2) := span (fun c => negb (is_space c)) r1 in
  let '(ws, rest) := span is_space r2 in
  let '(t, p) := split_rest (allow_space_uri (c_dcfg c)) (trimmed rest) in
  mk_words ls (if is_ignore (c_ws_unwanted c) then m else ls ++ m) ws (trimmed rest) (if nothing rest then None else Some t)
    (if nothing rest || nothing p then None else Some p).
Lemma words_read c line : reads_request c line (words_of c line).
Proof.
  unfold words_of. destruct (span is_space (line_data c line)) as [ls r1] eqn:E1. destruct (span _ r1) as [m r2] eqn:E2. destruct (span is_space r2) as [ws rest] eqn:E3.
  destruct (split_rest _ _) as [t p] eqn:E4. exists (line_data c line), r1, m, r2, rest. cbn [w_leading w_method w_gap w_rest w_target w_protocol].
  split. { unfold line_data. destruct (c_pers c); try reflexivity. destruct (span _ line) as [u v] eqn:E. exists v. cbn [fst]. now apply (span_max_run _ _ _ _ _ nonzero_spec). }
  split; [now apply (span_max_run _ _ _ _ _ is_space_spec)|]. split; [now apply (span_max_run _ _ _ _ _ is_space_no)|]. split; [now apply (span_max_run _ _ _ _ _ is_space_spec)|].
  split; [apply trimmed_spec|]. split; [reflexivity|].
  destruct rest as [|y rest]; [left; auto|]. right. exists t, p. split; [discriminate|].
  split; [|split; reflexivity]. pose proof (split_rest_spec (allow_space_uri (c_dcfg c)) _ _ (trimmed_spec (y :: rest))) as S. now rewrite E4 in S.
Qed.
Lemma words_unique c line w w' : reads_request c line w -> reads_request c line w' -> w = w'.
Proof.
  intros (d & r1 & m & r2 & rest & D & L & M & W & Tr & Me & Ta) (d' & r1' & m' & r2' & rest' & D' & L' & M' & W' & Tr' & Me' & Ta').
  destruct w as [ls a ws r b cc], w' as [ls' a' ws' r' b' c']. cbn [w_leading w_method w_gap w_rest w_target w_protocol] in *.
  assert (d = d') as <-.
  { destruct (c_pers c); try congruence. destruct D as [x D], D' as [y D']. now destruct (max_run_unique _ _ _ _ _ _ D D'). }
  destruct (max_run_unique _ _ _ _ _ _ L L') as [<- <-]. destruct (max_run_unique _ _ _ _ _ _ M M') as [<- <-]. destruct (max_run_unique _ _ _ _ _ _ W W') as [<- <-].
  subst a a'. pose proof (trims_to_unique _ _ _ _ Tr Tr') as <-.
  assert (b = b' /\ cc = c') as [<- <-]; [|reflexivity].
  destruct Ta as [(Z & -> & ->)|(t & p & Z & S & -> & ->)]; destruct Ta' as [(Z' & -> & ->)|(t' & p' & Z' & S' & -> & ->)]; try contradiction; [auto|].
  destruct (target_unique _ _ _ _ _ _ S S') as [<- <-]. auto.
Qed.
Lemma request_line_told c line w t : reads_request c line w ->
  t_line (x_req (fst (conn_parse_request_line c line t))) = Some line /\ tells_request c w (fst (conn_parse_request_line c line t)).
Proof.
  intro R. rewrite (words_unique _ _ _ _ R (words_read c line)). clear w R. unfold words_of, conn_parse_request_line, line_data.
  destruct (span is_space _) as [ls r1] eqn:E1. destruct (span _ r1) as [m r2] eqn:E2. destruct (span is_space r2) as [ws rest] eqn:E3.
  set (k := negb (is_nil ls) && negb (is_ignore (c_ws_unwanted c))).
  replace (if is_ignore (c_ws_unwanted c) then m else ls ++ m) with (if k then ls ++ m else m).
  2:{ unfold k. destruct (is_ignore (c_ws_unwanted c)); cbn [negb]; [now rewrite andb_false_r|]. now destruct ls. }
  set (mm := if k then ls ++ m else m). pose proof (method_named mm) as NM. rewrite is_nil_nothing. destruct (nothing rest) eqn:Nr.
  - destruct (split_rest _ (trimmed rest)) as [? ?]. cbn [fst orb]. set (u := if k then _ else _).
    split; [unfold u; destruct k; reflexivity|]. constructor; cbn [w_method w_target w_protocol]; try (intros; discriminate); try reflexivity; [exact NM|]. intros _. split; reflexivity.
  - unfold split_rest. destruct (split_on_predicate (trimmed rest) _ true (fun c => c =? 32)) as [u1 p1]. cbv zeta.
    destruct (if (length u1 =? length (trimmed rest))%nat && existsb is_space u1 then _ else _) as [u p]. rewrite is_nil_nothing. cbn [orb].
    destruct (nothing p) eqn:Np; cbn [fst].
    + set (v := if k then _ else _). split; [unfold v; destruct k; reflexivity|]. constructor; cbn [w_method w_target w_protocol]; try (intros; discriminate); try reflexivity; [exact NM|intros ? [= <-]; reflexivity|]. intros _. split; reflexivity.
    + unfold parse_protocol_log. pose proof (version_named p) as V. destruct (parse_protocol p) as [pn ex]. cbn [fst] in *.
      set (v := if k then _ else _). split; [unfold v; destruct k; reflexivity|]. constructor; cbn [w_method w_target w_protocol]; try (intros; discriminate); try reflexivity; [exact NM|intros ? [= <-]; reflexivity|].
      intros ? [= <-]. split; [reflexivity|exact V].
Qed.

(** What is logged. *)
Lemma in_warn_if m b code : In m (warn_if b code) <-> b = true /\ m = warning code.
Proof. unfold warn_if. destruct b; cbn [In]; split; [intros [<-|[]]; auto|intros [_ ->]; auto|tauto|intros [? _]; discriminate]. Qed.
Lemma padded_spec p : snd (parse_protocol p) = true <-> padded p.
Proof.
  split.
  - intro E. pose proof (parse_protocol_exact p) as (A & B & C & D). pose proof (parse_protocol_range p) as R. cbv zeta in R.
    assert (X : exists v, In v [s2b ".9"; s2b "1.0"; s2b "1.1"] /\ protocol_text p v).
    { destruct R as [R|[R|[R|R]]]; [pose proof (parse_protocol_quiet _ R); congruence|exists (s2b ".9")|exists (s2b "1.0")|exists (s2b "1.1")]; (split; [cbn; tauto|]); [now apply A|now apply B|now apply C]. }
    destruct X as (v & V & w1 & h & w2 & z & w3 & -> & F1 & H & F2 & Z & F3). exists w1, h, w2, z, v, w3. repeat (split; [first [reflexivity|assumption]|]).
    now apply (parse_protocol_extra w1 h w2 z v w3 F1 H F2 Z F3 V).
  - intros (w1 & h & w2 & z & v & w3 & -> & F1 & H & F2 & Z & F3 & V & O). now apply (parse_protocol_extra w1 h w2 z v w3 F1 H F2 Z F3 V).
Qed.
Lemma retry_spec spaces l rest : trims_to c_space l rest ->
  (let u := fst (split_on_predicate rest spaces true (fun c => c =? 32)) in (length u =? length rest)%nat && existsb is_space u) = true <->
  exists c, In c rest /\ c_space c /\ ~ In 32 rest.
Proof.
  intro T. cbv zeta. assert (S32 : forall x, (x =? 32) = true <-> 32 = x) by (intro; rewrite N.eqb_eq; split; congruence).
  destruct (existsb (fun c => c =? 32) rest) eqn:E.
  - destruct (split_sep _ (eq 32) rest spaces S32 E) as (a & x & b & Q & X & F & ->). subst x. cbn [fst].
    replace (length (trimmed a) =? length rest)%nat with false.
    2:{ symmetry. apply Nat.eqb_neq. pose proof (trims_length _ _ _ (trimmed_spec a)). rewrite Q, app_length. cbn [length]. lia. }
    cbn [andb]. split; [discriminate|]. intros (c & _ & _ & Z). exfalso. apply Z. rewrite Q. apply in_elt.
  - rewrite (split_nosep _ _ spaces E). cbn [fst]. rewrite (trimmed_trims _ _ T), Nat.eqb_refl. cbn [andb].
    assert (N32 : ~ In 32 rest) by (intro I; assert (X : existsb (fun c => c =? 32) rest = true) by (apply existsb_exists; exists 32; split; [exact I|reflexivity]); congruence).
    rewrite existsb_exists. split; intros (c & A & B); exists c; [split; [exact A|split; [now apply is_space_spec|exact N32]]|split; [exact A|now apply is_space_spec]].
Qed.
Lemma unknown_spec m : is_unknown (method_new m) = true <-> ~ In m known_methods.
Proof. destruct (method_named m) as [[A ->]|[A ->]]; cbn [is_unknown]; split; try discriminate; try contradiction; auto. Qed.
Lemma request_line_warned c line w t : reads_request c line w ->
  forall m, In m (snd (conn_parse_request_line c line t)) <-> exists code, m = warning code /\ warned w code.
Proof.
  intro R. rewrite (words_unique _ _ _ _ R (words_read c line)). clear w R. unfold words_of, conn_parse_request_line, line_data.
  destruct (span is_space _) as [ls r1] eqn:E1. destruct (span _ r1) as [mt r2] eqn:E2. destruct (span is_space r2) as [ws rest] eqn:E3.
  set (k := negb (is_nil ls) && negb (is_ignore (c_ws_unwanted c))).
  replace (if is_ignore (c_ws_unwanted c) then mt else ls ++ mt) with (if k then ls ++ mt else mt).
  2:{ unfold k. destruct (is_ignore (c_ws_unwanted c)); cbn [negb]; [now rewrite andb_false_r|]. now destruct ls. }
  set (mm := if k then ls ++ mt else mt). pose proof (unknown_spec mm) as UN.
  assert (LA : negb (is_nil ls) = true <-> ls <> []) by (destruct ls; cbn; split; congruence).
  assert (LB : existsb (fun c => negb (c =? 32)) ws = true <-> exists c, In c ws /\ c <> 32).
  { rewrite existsb_exists. split; intros (x & I & Q); exists x; (split; [exact I|]); destruct (N.eqb_spec x 32); cbn in *; congruence. }
  rewrite (is_nil_nothing rest). destruct (nothing rest) eqn:Nr.
  - assert (rest = []) as -> by (destruct rest; [reflexivity|discriminate Nr]). destruct (split_rest _ _) as [? ?]. cbn [snd orb].
    intro m. rewrite !in_app_iff, !in_warn_if, LA, LB. replace (x_methodn _) with (method_new mm) by reflexivity. rewrite UN. split.
    + intros [[[A ->]|[(x & I & X) ->]]|[A ->]]; eexists; (split; [reflexivity|]); [now apply wa_leading|now apply (wa_gap _ x)|now apply wa_unknown].
    + intros (code & -> & [A|x I X|x I X Y|p A|A _|u A B|p A B]); cbn [w_leading w_method w_gap w_rest w_target w_protocol] in *; try discriminate; eauto 6. destruct I.
  - pose proof (retry_spec (allow_space_uri (c_dcfg c)) _ _ (trimmed_spec rest)) as RS. unfold split_rest.
    destruct (split_on_predicate (trimmed rest) _ true (fun c => c =? 32)) as [u1 p1]. cbv zeta in *. cbn [fst] in RS.
    set (retry := (length u1 =? length (trimmed rest))%nat && existsb is_space u1) in *.
    destruct (if retry then _ else _) as [u p]. rewrite (is_nil_nothing p). cbn [orb].
    destruct (nothing p) eqn:Np; cbn [snd].
    + intro m. rewrite !in_app_iff, !in_warn_if, LA, LB, RS. replace (x_methodn _) with (method_new mm) by reflexivity. rewrite UN. split.
      * intros [[[[A ->]|[(x & I & X) ->]]|[(x & I & X & Y) ->]]|[A ->]]; eexists; (split; [reflexivity|]); [now apply wa_leading|now apply (wa_gap _ x)|now apply (wa_delim _ x)|now apply (wa_simple _ u)].
      * intros (code & -> & [A|x I X|x I X Y|q A|A B|q A B|q A B]); cbn [w_leading w_method w_gap w_rest w_target w_protocol] in *; try discriminate; eauto 9.
    + unfold parse_protocol_log. pose proof (padded_spec p) as PS. pose proof (version_named p) as V. destruct (parse_protocol p) as [pn ex]. cbn [fst snd] in *.
      intro m. rewrite !in_app_iff, !in_warn_if, LA, LB, RS, PS. replace (x_methodn _) with (method_new mm) by reflexivity. rewrite andb_true_iff, UN. split.
      * intros [[[[A ->]|[(x & I & X) ->]]|[(x & I & X & Y) ->]]|[[A ->]|[[A B] ->]]]; eexists; (split; [reflexivity|]); [now apply wa_leading|now apply (wa_gap _ x)|now apply (wa_delim _ x)|now apply (wa_padded _ p)|].
        apply (wa_invalid _ p); [exact A|reflexivity|]. destruct pn; try discriminate B. exact V.
      * intros (code & -> & [A|x I X|x I X Y|q A B|A B|q A B|q A B C]); cbn [w_leading w_method w_gap w_rest w_target w_protocol] in *; try discriminate; eauto 9.
        -- injection A as <-. eauto 9.
        -- injection B as <-. right. right. split; [|reflexivity]. split; [exact A|]. destruct pn; try reflexivity; exfalso; cbn [names_version] in V, C; try contradiction; (eapply C; [|exact V]); cbn [In]; auto.
Qed.

(** * Status lines *)
Lemma space_or_nul x : is_space x || (x =? 0) = true <-> c_space x \/ x = 0.
Proof. rewrite orb_true_iff, is_space_spec, N.eqb_eq. tauto. Qed.
Definition swords_of (line : bytes) : status_words :=
  let '(_, r1) := span (fun c => is_space c || (c =? 0)) line in
  let '(p, r2) := span (fun c => negb (is_space c)) r1 in
  let '(_, r3) := span is_space r2 in
  let '(code, r4) := span (fun c => negb (is_space c)) r3 in
  let '(ws2, m) := span is_ascii_ws r4 in
  mk_swords (if nothing p then None else Some p) (if nothing code then None else Some code) (if nothing code || nothing ws2 then None else Some (chomp m)).
Lemma chomped_unique m m1 m2 :
  (exists eol, m = m1 ++ eol /\ Forall (fun b => b = 10 \/ b = 13) eol /\ forall a x, m1 = a ++ [x] -> x <> 10 /\ x <> 13) ->
  (exists eol, m = m2 ++ eol /\ Forall (fun b => b = 10 \/ b = 13) eol /\ forall a x, m2 = a ++ [x] -> x <> 10 /\ x <> 13) -> m1 = m2.
Proof.
  intros (e1 & -> & F1 & L1) (e2 & E & F2 & L2). apply (f_equal (@rev N)) in E. rewrite !rev_app_distr in E.
  assert (MR : forall u v : bytes, Forall (fun b => b = 10 \/ b = 13) v -> (forall a x, u = a ++ [x] -> x <> 10 /\ x <> 13) -> max_run (fun b => b = 10 \/ b = 13) (rev v ++ rev u) (rev v) (rev u)).
  { intros u v V U. split; [reflexivity|]. split; [now apply Forall_rev|]. intros x q Q. apply (f_equal (@rev N)) in Q. rewrite rev_involutive in Q. cbn [rev] in Q. destruct (U _ _ Q). tauto. }
  pose proof (MR _ _ F1 L1) as A. rewrite E in A. destruct (max_run_unique _ _ _ _ _ _ A (MR _ _ F2 L2)) as [_ Q].
  apply (f_equal (@rev N)) in Q. now rewrite !rev_involutive in Q.
Qed.
Lemma swords_read line : reads_status line (swords_of line).
Proof.
  unfold swords_of. destruct (span _ line) as [l0 r1] eqn:E0. destruct (span _ r1) as [p r2] eqn:E1. destruct (span _ r2) as [w1 r3] eqn:E2. destruct (span _ r3) as [code r4] eqn:E3. destruct (span _ r4) as [w2 m] eqn:E4.
  exists l0, r1, p, r2, w1, r3, code, r4, w2, m, (chomp m).
  split; [now apply (span_max_run _ _ _ _ _ space_or_nul)|]. split; [now apply (span_max_run _ _ _ _ _ is_space_no)|]. split; [now apply (span_max_run _ _ _ _ _ is_space_spec)|].
  split; [now apply (span_max_run _ _ _ _ _ is_space_no)|]. split; [now apply (span_max_run _ _ _ _ _ is_ascii_ws_spec)|].
  split; [|split; [reflexivity|split; reflexivity]]. destruct (chomp_spec m) as (eol & A & B & C). exists eol. split; [exact A|]. split; [exact B|]. intros a x. apply C.
Qed.
Lemma swords_unique line w w' : reads_status line w -> reads_status line w' -> w = w'.
Proof.
  intros (l0 & r1 & p & r2 & w1 & r3 & code & r4 & w2 & m & c & A0 & A1 & A2 & A3 & A4 & Ch & P & S & M) (l0' & r1' & p' & r2' & w1' & r3' & code' & r4' & w2' & m' & c' & A0' & A1' & A2' & A3' & A4' & Ch' & P' & S' & M').
  destruct (max_run_unique _ _ _ _ _ _ A0 A0') as [<- <-]. destruct (max_run_unique _ _ _ _ _ _ A1 A1') as [<- <-]. destruct (max_run_unique _ _ _ _ _ _ A2 A2') as [<- <-].
  destruct (max_run_unique _ _ _ _ _ _ A3 A3') as [<- <-]. destruct (max_run_unique _ _ _ _ _ _ A4 A4') as [<- <-]. rewrite <- (chomped_unique _ _ _ Ch Ch') in M'.
  destruct w as [a1 a2 a3], w' as [b1 b2 b3]. cbn [v_protocol v_status v_message] in *. congruence.
Qed.
Lemma names_status_parse code : Forall (fun b => ~ c_space b) code -> names_status code (match parse_status code with Some n => RnValid n | None => RnInvalid end).
Proof.
  intro F. unfold names_status. destruct (parse_status code) as [n|] eqn:E.
  - left. exists n. split; [reflexivity|]. apply parse_status_spec in E. destruct E as (a & ds & b & -> & A & B & Z & D & V & R).
    apply Forall_app in F. destruct F as [Fa F]. apply Forall_app in F. destruct F as [_ Fb].
    assert (X : forall l, Forall sp_or_tab l -> Forall (fun b => ~ c_space b) l -> l = []).
    { intros [|x l] H1 H2; [reflexivity|]. inversion H1; inversion H2; subst. exfalso. match goal with H : sp_or_tab x, H' : ~ c_space x |- _ => apply H'; destruct H as [->| ->]; left; unfold ascii_space; auto end. }
    rewrite (X a A Fa), (X b B Fb) in *. cbn [app]. rewrite app_nil_r. auto.
  - right. split; [reflexivity|]. intros (D & Z & R). enough (parse_status code = Some (dec_value code)) by congruence.
    apply parse_status_spec. exists [], code, []. rewrite app_nil_r. repeat (split; [try reflexivity; try assumption; now constructor|]). exact R.
Qed.
Lemma status_line_told line w t : reads_status line w -> t_proto (x_resp t) = None ->
  let t' := fst (validate_response_line (fst (conn_parse_response_line line t))) in t_line (x_resp t') = Some line /\ tells_status w t'.
Proof.
  intros R P0. rewrite (swords_unique _ _ _ R (swords_read line)). clear w R. cbv zeta.
  assert (V : forall u, (x_statusn u = RnInvalid \/ exists k, x_statusn u = RnValid k /\ 100 <= k <= 999) -> forall w,
    t_line (x_resp u) = Some line -> tells_status w u -> t_line (x_resp (fst (validate_response_line u))) = Some line /\ tells_status w (fst (validate_response_line u))).
  { intros u Hu w L [T1 T2 T3 T4 T5]. unfold validate_response_line. cbv zeta. cbn [fst].
    set (u1 := if match t_proton (x_resp u) with ProtoInvalid => true | _ => false end then add_flag STATUS_LINE_INVALID u else u).
    assert (U : x_resp u1 = x_resp u /\ x_status u1 = x_status u /\ x_statusn u1 = x_statusn u /\ x_msg u1 = x_msg u) by (unfold u1; destruct (t_proton (x_resp u)); repeat split).
    destruct U as (U1 & U2 & U3 & U4). destruct Hu as [Hu|(k & Hu & K)].
    - rewrite U3, Hu. cbn [in_range negb]. split; [cbn [x_resp add_flag set_x_flags set_x_statusn]; now rewrite U1|]. constructor; cbn [x_resp x_status x_statusn x_msg add_flag set_x_flags set_x_statusn]; rewrite ?U1, ?U2, ?U4; try assumption. rewrite Hu in T4. exact T4.
    - assert (X : in_range (x_statusn u1) 100 999 = true) by (rewrite U3, Hu; cbn [in_range]; apply andb_true_intro; rewrite !N.leb_le; exact K).
      rewrite X. cbn [negb]. split; [now rewrite U1|]. constructor; rewrite ?U1, ?U2, ?U3, ?U4; assumption. }
  unfold swords_of, conn_parse_response_line.
  destruct (span _ line) as [l0 r1] eqn:E0. destruct (span _ r1) as [p r2] eqn:E1. destruct (span _ r2) as [w1 r3] eqn:E2. destruct (span _ r3) as [code r4] eqn:E3. destruct (span _ r4) as [w2 m] eqn:E4.
  apply (span_max_run _ _ _ _ _ space_or_nul) in E0. apply (span_max_run _ _ _ _ _ is_space_no) in E1. apply (span_max_run _ _ _ _ _ is_space_spec) in E2. apply (span_max_run _ _ _ _ _ is_space_no) in E3. clear E4.
  cbv zeta. rewrite (is_nil_nothing p).
  assert (C0 : forall x l, r1 = x :: l -> p = [] -> False).
  { intros x l -> ->. destruct E0 as (_ & _ & N0). destruct E1 as (Q1 & _ & N1). cbn [app] in Q1. apply (N1 x l); [now symmetry|]. intro S. apply (N0 x l); [reflexivity|]. left. exact S. }
  assert (C1 : r2 = [] -> code = []).
  { intros ->. destruct E2 as (Q & _). symmetry in Q. apply app_eq_nil in Q. destruct Q as [_ ->]. destruct E3 as (Q & _). symmetry in Q. now apply app_eq_nil in Q. }
  assert (C2 : nothing w1 = true -> nothing code = true).
  { intro W. destruct w1; [|discriminate W]. destruct E2 as (Q2 & _ & N2). cbn [app] in Q2. destruct r2 as [|x r2]; [now rewrite C1|]. exfalso.
    destruct E1 as (_ & _ & N1). apply (N1 x r2 eq_refl). intro S. apply (N2 x r2); [now symmetry|exact S]. }
  assert (C3 : nothing p = true -> nothing code = true).
  { intro Z. destruct p; [|discriminate Z]. destruct r1 as [|x l]; [|exfalso; eapply C0; reflexivity]. destruct E1 as (Q & _). cbn [app] in Q. rewrite C1 by congruence. reflexivity. }
  destruct (nothing p) eqn:Np.
  - rewrite (C3 eq_refl). cbn [orb fst]. apply V; [left; reflexivity|reflexivity|]. constructor; cbn [v_protocol v_status v_message]; try reflexivity. exact P0.
  - unfold parse_protocol_log. pose proof (version_named p) as NV. destruct (parse_protocol p) as [pn ex]. cbn [fst] in NV.
    rewrite (is_nil_nothing w1), (is_nil_nothing code), (is_nil_nothing w2). replace (nothing w1 || nothing code) with (nothing code) by (destruct (nothing w1); [now rewrite C2|reflexivity]).
    destruct (nothing code) eqn:Nc; cbn [fst orb].
    + apply V; [left; reflexivity|reflexivity|]. constructor; cbn [v_protocol v_status v_message]; try reflexivity. exact NV.
    + pose proof (names_status_parse code (proj1 (proj2 E3))) as NS.
      assert (HV : (match parse_status code with Some n => RnValid n | None => RnInvalid end) = RnInvalid \/ exists k, (match parse_status code with Some n => RnValid n | None => RnInvalid end) = RnValid k /\ 100 <= k <= 999).
      { destruct NS as [(k & -> & K & _)|[-> _]]; eauto. }
      destruct (nothing w2); cbn [fst]; (apply V; [exact HV|reflexivity|]); constructor; cbn [v_protocol v_status v_message]; try reflexivity; try exact NV; exact NS.
Qed.
Lemma names_invalid p v : names_version p v -> names_version p ProtoInvalid -> v = ProtoInvalid.
Proof. intros V C. destruct v; try reflexivity; exfalso; cbn [names_version] in V, C; try contradiction; (eapply C; [|exact V]); cbn [In]; auto. Qed.
Lemma status_invalid s n : names_status s n -> names_status s RnInvalid -> n = RnInvalid.
Proof. intros [(k & -> & K & D & Z & V)|[-> _]] H; [|reflexivity]. destruct H as [(k' & Q & _)|[_ H]]; [discriminate Q|]. exfalso. apply H. rewrite V. auto. Qed.
Lemma parse_line_logs line t m : In m (snd (conn_parse_response_line line t)) <-> m = warning "PROTOCOL_CONTAINS_EXTRA_DATA" /\ exists p, v_protocol (swords_of line) = Some p /\ padded p.
Proof.
  unfold swords_of, conn_parse_response_line.
  destruct (span _ line) as [l0 r1]. destruct (span _ r1) as [p r2]. destruct (span _ r2) as [w1 r3]. destruct (span _ r3) as [code r4]. destruct (span _ r4) as [w2 msg].
  cbv zeta. rewrite (is_nil_nothing p). cbn [v_protocol]. destruct (nothing p).
  - cbn [snd In]. split; [tauto|]. intros (_ & q & Q & _). discriminate Q.
  - unfold parse_protocol_log. pose proof (padded_spec p) as PS. destruct (parse_protocol p) as [pn ex]. cbn [snd] in PS.
    assert (X : In m (warn_if ex "PROTOCOL_CONTAINS_EXTRA_DATA") <-> m = warning "PROTOCOL_CONTAINS_EXTRA_DATA" /\ exists q, Some p = Some q /\ padded q).
    { rewrite in_warn_if, PS. split; [intros [A ->]; eauto|]. intros (-> & q & [= <-] & A). auto. }
    destruct (is_nil w1 || is_nil code); [exact X|]. destruct (is_nil w2); exact X.
Qed.
Lemma status_line_warned line w t : reads_status line w -> t_proto (x_resp t) = None ->
  forall m, In m (snd (conn_parse_response_line line t) ++ snd (validate_response_line (fst (conn_parse_response_line line t)))) <->
    exists code, m = warning code /\ status_warned w code.
Proof.
  intros R P0 m. pose proof (status_line_told line w t R P0) as T. cbv zeta in T. destruct T as [_ [T1 T2 T3 T4 T5]].
  pose proof (parse_line_logs line t m) as L. rewrite (swords_unique _ _ _ (swords_read line) R) in L.
  rewrite in_app_iff, L. clear L. set (u := fst (conn_parse_response_line line t)) in *. unfold validate_response_line in *. cbv zeta in *. cbn [fst snd] in *.
  set (u1 := if match t_proton (x_resp u) with ProtoInvalid => true | _ => false end then add_flag STATUS_LINE_INVALID u else u) in *.
  assert (U1 : x_resp u1 = x_resp u /\ x_statusn u1 = x_statusn u) by (unfold u1; destruct (t_proton (x_resp u)); split; reflexivity). destruct U1 as [U1 U2].
  assert (PR : x_resp (if negb (in_range (x_statusn u1) 100 999) then add_flag STATUS_LINE_INVALID (set_x_statusn RnInvalid u1) else u1) = x_resp u) by (destruct (negb _); exact U1).
  rewrite PR in *.
  rewrite in_app_iff, !in_warn_if.
  assert (BP : match t_proton (x_resp u) with ProtoInvalid => true | _ => false end = true <-> v_protocol w = None \/ exists p, v_protocol w = Some p /\ names_version p ProtoInvalid).
  { destruct (v_protocol w) as [p|].
    - split; [intro E; right; exists p; split; [reflexivity|]; destruct (t_proton (x_resp u)); try discriminate E; exact T2|].
      intros [E|(q & [= <-] & V)]; [discriminate E|]. now rewrite (names_invalid _ _ T2 V).
    - rewrite T2. split; auto. }
  assert (BS : negb (in_range (x_statusn u1) 100 999) = true <-> v_status w = None \/ exists s, v_status w = Some s /\ names_status s RnInvalid).
  { set (b := negb (in_range (x_statusn u1) 100 999)) in *. destruct (v_status w) as [s|].
    - split.
      + intro E. right. exists s. split; [reflexivity|]. rewrite E in T4. exact T4.
      + intros [E|(q & [= <-] & V)]; [discriminate E|]. destruct b eqn:B; [reflexivity|]. exfalso. pose proof (status_invalid _ _ T4 V) as Z. unfold b in B. rewrite Z in B. discriminate B.
    - split; [auto|intros _]. destruct b eqn:B; [reflexivity|]. unfold b in B. rewrite T4 in B. discriminate B. }
  rewrite BP, BS. split.
  - intros [(-> & p & A & B)|[[[A|(p & A & B)] ->]|[[A|(s & A & B)] ->]]]; eexists; (split; [reflexivity|]); [now apply (sw_padded _ p)|now apply sw_none|now apply (sw_protocol _ p)|now apply sw_missing|now apply (sw_status _ s)].
  - intros (code & -> & [p A B|A|p A B|A|s A B]); eauto 8.
Qed.
(** For every line there is one reading, and it is what the transaction tells. *)
Lemma request_line_exact c line : exists w, reads_request c line w /\ (forall w', reads_request c line w' -> w' = w) /\
  forall t, t_line (x_req (fst (conn_parse_request_line c line t))) = Some line /\ tells_request c w (fst (conn_parse_request_line c line t)) /\
    forall m, In m (snd (conn_parse_request_line c line t)) <-> exists code, m = warning code /\ warned w code.
Proof.
  exists (words_of c line). split; [apply words_read|]. split; [intros w' H; exact (words_unique _ _ _ _ H (words_read c line))|].
  intro t. destruct (request_line_told c line _ t (words_read c line)) as [A B]. split; [exact A|]. split; [exact B|]. exact (request_line_warned _ _ _ t (words_read c line)).
Qed.
Lemma status_line_exact line : exists w, reads_status line w /\ (forall w', reads_status line w' -> w' = w) /\
  forall t, t_proto (x_resp t) = None -> let t1 := conn_parse_response_line line t in let t2 := validate_response_line (fst t1) in
    t_line (x_resp (fst t2)) = Some line /\ tells_status w (fst t2) /\ forall m, In m (snd t1 ++ snd t2) <-> exists code, m = warning code /\ status_warned w code.
Proof.
  exists (swords_of line). split; [apply swords_read|]. split; [intros w' H; exact (swords_unique _ _ _ H (swords_read line))|].
  intros t P0. cbv zeta. destruct (status_line_told line _ t (swords_read line) P0) as [A B]. split; [exact A|]. split; [exact B|]. exact (status_line_warned _ _ t (swords_read line) P0).
Qed.
