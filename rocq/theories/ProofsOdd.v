(** C77: oddities of header fields. *)
From Verif Require ProofsTx ProofsBase.
From Verif Require Import Base ModelUtil ModelBstr ModelHeaders ModelTx Spec SpecTx SpecField ProofsField SpecOdd.

Definition bit (ph : pheader) (o : oddity) : bool :=
  fis_set (hf_flags (ph_name ph))
    (match o with BlankAfter => HF_NAME_TRAILING_WHITESPACE | BlankBefore => HF_NAME_LEADING_WHITESPACE
                | NotToken => HF_NAME_NON_TOKEN_CHARS | NoName => HF_MISSING_COLON end).
Definition rows (ph : pheader) : list (bool * oddity) := map (fun o => (bit ph o, o)) oddities.
Definition put (sd : side) (a : N * list logmsg) (r : bool * oddity) : N * list logmsg :=
  if fst r then (fset (fst a) (raises (snd r)), snd a ++ warn_if (negb (fis_set (fst a) (raises (snd r)))) (warns sd (snd r))) else a.
Definition early (sd : side) (ph : pheader) : list logmsg :=
  match sd with SReq => [] | SResp => warn_if (fis_set (hf_flags (ph_value ph)) HF_DEFORMED_EOL || fis_set (hf_flags (ph_name ph)) HF_DEFORMED_EOL) "DEFORMED_EOL" end.

Lemma empty_is_missing w : fis_set w HF_MISSING_COLON = false -> fis_set w HF_NAME_EMPTY = false.
Proof.
  unfold fis_set, HF_MISSING_COLON. intro H. rewrite N.land_lor_distr_r in H. apply negb_false_iff, N.eqb_eq in H.
  apply N.lor_eq_0_iff in H as [_ H]. now rewrite H.
Qed.
Lemma header_flags_rows sd ph xf : exists hf, header_flags sd ph xf = (fst (fold_left (put sd) (rows ph) (xf, early sd ph)), hf, snd (fold_left (put sd) (rows ph) (xf, early sd ph))) /\
  hf = fold_left (fun h r => if fst r : bool then fold_left fset (marks sd (snd r)) h else h) (rows ph) 0.
Proof.
  eexists. split; [|reflexivity]. unfold header_flags, rows, oddities, put, early, bit. cbn [map fold_left fst snd]. unfold warn_once_if, warn_once, set_hflag_if.
  pose proof (empty_is_missing (hf_flags (ph_name ph))) as E.
  destruct sd; destruct (fis_set (hf_flags (ph_name ph)) HF_NAME_TRAILING_WHITESPACE), (fis_set (hf_flags (ph_name ph)) HF_NAME_LEADING_WHITESPACE),
    (fis_set (hf_flags (ph_name ph)) HF_NAME_NON_TOKEN_CHARS), (fis_set (hf_flags (ph_name ph)) HF_MISSING_COLON);
    try (rewrite (E eq_refl)); cbn [fst snd raises warns marks fold_left]; reflexivity.
Qed.

Definition flag3 (F : N) : Prop := In F [FIELD_INVALID; INVALID_FOLDING; FIELD_UNPARSEABLE].
Lemma raises3 o : flag3 (raises o). Proof. destruct o; cbn; unfold flag3; cbn; auto. Qed.
Lemma warnings_app sd F a b : warnings_of sd F (a ++ b) = warnings_of sd F a ++ warnings_of sd F b.
Proof. apply filter_app. Qed.
Lemma warnings_own sd F o : flag3 F -> warnings_of sd F [warning (warns sd o)] = if raises o =? F then [warning (warns sd o)] else [].
Proof. intros [<-|[<-|[<-|[]]]]; destruct sd, o; reflexivity. Qed.
Lemma fset_other xf o F : flag3 F -> fis_set (fset xf (raises o)) F = fis_set xf F || (raises o =? F).
Proof.
  intro HF. unfold fis_set, fset. rewrite N.land_lor_distr_l.
  assert (E : N.land (raises o) F = if raises o =? F then F else 0) by (destruct HF as [<-|[<-|[<-|[]]]]; destruct o; reflexivity).
  rewrite E. destruct (raises o =? F).
  - assert (F <> 0) by (destruct HF as [<-|[<-|[<-|[]]]]; discriminate). rewrite orb_true_r.
    destruct (N.eqb_spec (N.lor (N.land xf F) F) 0) as [H0|]; [|reflexivity]. apply N.lor_eq_0_iff in H0 as [_ H0]. contradiction.
  - rewrite N.lor_0_r. now rewrite orb_false_r.
Qed.
(** What a list of rows does. *)
Record does (sd : side) (R : list (bool * oddity)) (xf xf' : N) (add : list logmsg) : Prop := {
  do_flag : forall F, flag3 F -> fis_set xf' F = fis_set xf F || existsb (fun r => fst r && (raises (snd r) =? F)) R;
  do_rest : forall i, (forall F, flag3 F -> N.testbit F i = false) -> N.testbit xf' i = N.testbit xf i;
  do_warn : forall F, flag3 F -> warnings_of sd F add =
    if fis_set xf F then [] else match find (fun r => fst r && (raises (snd r) =? F)) R with Some r => [warning (warns sd (snd r))] | None => [] end }.
Lemma find_app {A} (p : A -> bool) l l' : find p (l ++ l') = match find p l with Some x => Some x | None => find p l' end.
Proof. induction l as [|x l IH]; [reflexivity|]. cbn. destruct (p x); [reflexivity|exact IH]. Qed.
Lemma find_existsb {A} (p : A -> bool) l : existsb p l = match find p l with Some _ => true | None => false end.
Proof. induction l as [|x l IH]; [reflexivity|]. cbn. destruct (p x); [reflexivity|exact IH]. Qed.
Lemma does_app sd R1 R2 xf x1 x2 a1 a2 : does sd R1 xf x1 a1 -> does sd R2 x1 x2 a2 -> does sd (R1 ++ R2) xf x2 (a1 ++ a2).
Proof.
  intros [A1 A2 A3] [B1 B2 B3]. split.
  - intros F HF. rewrite B1, A1, existsb_app, orb_assoc by assumption. reflexivity.
  - intros i Hi. now rewrite B2, A2.
  - intros F HF. rewrite warnings_app, A3, B3, A1, find_app, find_existsb by assumption. destruct (fis_set xf F); [reflexivity|].
    destruct (find _ R1); [reflexivity|reflexivity].
Qed.
Lemma does_nil sd xf l : (forall F, flag3 F -> warnings_of sd F l = []) -> does sd [] xf xf l.
Proof.
  intro H. split; [intros; now rewrite orb_false_r|reflexivity|]. intros F HF. rewrite H by assumption. cbn. now destruct (fis_set xf F).
Qed.
Lemma does_put sd r a : exists add, does sd [r] (fst a) (fst (put sd a r)) add /\ snd (put sd a r) = snd a ++ add.
Proof.
  destruct r as [[] o]; unfold put; cbn [fst snd].
  - eexists. split; [|reflexivity]. split.
    + intros F HF. rewrite fset_other by assumption. cbn [existsb fst snd andb]. now rewrite orb_false_r.
    + intros i Hi. unfold fset. rewrite N.lor_spec, (Hi _ (raises3 o)), orb_false_r. reflexivity.
    + intros F HF. cbn [find fst snd andb]. destruct (N.eqb_spec (raises o) F) as [<-|E].
      * destruct (fis_set (fst a) (raises o)); [reflexivity|]. cbn [negb warn_if]. rewrite warnings_own by assumption. now rewrite N.eqb_refl.
      * destruct (fis_set (fst a) (raises o)) eqn:K; cbn [negb warn_if].
        -- change (warnings_of sd F []) with (@nil logmsg). now destruct (fis_set (fst a) F).
        -- rewrite warnings_own by assumption. replace (raises o =? F) with false by (symmetry; now apply N.eqb_neq). now destruct (fis_set (fst a) F).
  - exists []. split; [|now rewrite app_nil_r]. split; [intros; cbn; now rewrite orb_false_r|reflexivity|].
    intros F HF. cbn. now destruct (fis_set (fst a) F).
Qed.
Lemma does_rows sd R : forall a, exists add, does sd R (fst a) (fst (fold_left (put sd) R a)) add /\ snd (fold_left (put sd) R a) = snd a ++ add.
Proof.
  induction R as [|r R IH]; intro a; cbn [fold_left].
  - exists []. split; [now apply does_nil|now rewrite app_nil_r].
  - destruct (does_put sd r a) as (a1 & D1 & E1). destruct (IH (put sd a r)) as (a2 & D2 & E2). exists (a1 ++ a2). split.
    + exact (does_app _ [r] _ _ _ _ _ _ D1 D2).
    + rewrite E2, E1. now rewrite app_assoc.
Qed.
Lemma merge_quiet sd h d F : flag3 F -> warnings_of sd F (snd (merge_header sd h d)) = [].
Proof.
  intro HF. unfold merge_header. destruct (headers_get_nocase (t_headers d) (hd_name h)) as [ex|]; [|reflexivity].
  destruct (negb (negb (fis_set (hd_flags ex) HF_FIELD_REPEATED)) && _); [reflexivity|]. cbn [snd]. rewrite warnings_app.
  assert (Q : forall b c, In c ["DUPLICATE_CONTENT_LENGTH_FIELD_IN_REQUEST"; "DUPLICATE_CONTENT_LENGTH_FIELD_IN_RESPONSE"; "REQUEST_HEADER_REPETITION"; "RESPONSE_HEADER_REPETITION"]%string -> warnings_of sd F (warn_if b c) = []).
  { intros [] c Hc; [|reflexivity]. destruct HF as [<-|[<-|[<-|[]]]]; destruct Hc as [<-|[<-|[<-|[<-|[]]]]]; destruct sd; reflexivity. }
  rewrite !Q; [reflexivity|destruct sd; cbn; auto|destruct sd; cbn; auto].
Qed.
Lemma early_quiet sd ph F : flag3 F -> warnings_of sd F (early sd ph) = [].
Proof.
  intro HF. destruct sd; [reflexivity|]. unfold early. destruct (_ || _); [|reflexivity]. destruct HF as [<-|[<-|[<-|[]]]]; reflexivity.
Qed.
Lemma does_header sd ph t : does sd (rows ph) (x_flags t) (x_flags (fst (add_header sd ph t))) (snd (add_header sd ph t)).
Proof.
  unfold add_header. destruct (header_flags_rows sd ph (x_flags t)) as (hf & -> & _).
  destruct (does_rows sd (rows ph) (x_flags t, early sd ph)) as (add & D & E). cbn [fst snd] in D, E.
  set (m := merge_header _ _ _). pose proof (merge_quiet sd (mk_header (hf_bytes (ph_name ph)) (hf_bytes (ph_value ph)) hf) (x_dir sd (set_x_flags (fst (fold_left (put sd) (rows ph) (x_flags t, early sd ph))) t))) as Q. fold m in Q.
  destruct m as [d lg2]. cbn [fst snd] in *. rewrite E.
  replace (x_flags (set_x_dir sd d (set_x_flags (fst (fold_left (put sd) (rows ph) (x_flags t, early sd ph))) t))) with (fst (fold_left (put sd) (rows ph) (x_flags t, early sd ph))) by (destruct sd, t; reflexivity).
  replace (rows ph) with ([] ++ rows ph ++ []) at 1 by (now rewrite app_nil_r).
  rewrite <- app_assoc. eapply does_app; [apply does_nil; intros; now apply early_quiet|]. eapply does_app; [exact D|]. now apply does_nil.
Qed.
Lemma does_headers sd hs : forall t, does sd (flat_map rows hs) (x_flags t) (x_flags (add_headers sd hs t)) (add_headers_log sd hs t).
Proof.
  induction hs as [|h hs IH]; intro t; cbn [flat_map add_headers add_headers_log fold_left].
  - now apply does_nil.
  - eapply does_app; [apply does_header|apply IH].
Qed.

(** ** The rows of a field *)
Lemma says_bit f h o : says f h -> (bit h o = true <-> odd f o).
Proof.
  unfold bit. rewrite fis_land. intros [n v more bl v1 N1 M1 T1 [F1 F1'] V1 W1|N1 B1 V1 F1 W1].
  - assert (U : forall m, has_name f m -> m = n).
    { intros m (v2 & more2 & K). now destruct (named_det _ _ _ _ _ _ N1 _ _ _ K) as (-> & _). }
    assert (H : has_name f n) by (eexists _, _; exact N1). unfold name_notes in F1. destruct o; cbn [odd].
    + rewrite (F1 _ _ (or_intror (or_intror (or_introl eq_refl)))). split.
      * intros (b & n' & -> & Hb). eauto.
      * intros (n' & b & K & Hb). apply U in K. eauto.
    + rewrite (F1 _ _ (or_intror (or_introl eq_refl))). split.
      * intros (b & n' & -> & Hb). eauto.
      * intros (n' & b & K & Hb). apply U in K. eauto.
    + rewrite (F1 _ _ (or_intror (or_intror (or_intror (or_introl eq_refl))))). split; [eauto|]. intros (m & K & Hm). now rewrite (U _ K) in Hm.
    + unfold HF_MISSING_COLON. rewrite N.land_lor_distr_r.
      assert (Z : N.land (hf_flags (ph_name h)) 512 = 0).
      { apply N.bits_inj. intro i. rewrite N.land_spec, N.bits_0. change 512 with (2 ^ 9). rewrite N.pow2_bits_eqb.
        destruct (N.eqb_spec 9 i) as [<-|]; [|now rewrite andb_false_r]. rewrite andb_true_r. apply not_true_iff_false. intro K.
        destruct (F1' _ K) as (k & P & [[= <- _]|[[= <- _]|[[= <- _]|[[= <- _]|[]]]]] & T); vm_compute in T; discriminate. }
      rewrite Z, N.lor_0_l. rewrite (F1 _ _ (or_introl eq_refl)). split; [intros -> m K; now apply U|intro K; now apply K].
  - assert (U : forall m, ~ has_name f m) by (intros m (v2 & more2 & K); elim (N1 _ _ _ K)).
    rewrite F1. assert (E : exists k, value_flags (f_line f) (f_more f) = k /\ In k [0; HF_VALUE_EMPTY; HF_FOLDING]).
    { eexists. split; [reflexivity|]. unfold value_flags. destruct (f_more f), (f_line f); cbn; auto. }
    destruct E as (k & -> & K). destruct o; cbn [odd].
    + split; [|intros (? & ? & Q & _); elim (U _ Q)]. destruct K as [<-|[<-|[<-|[]]]]; now vm_compute.
    + split; [|intros (? & ? & Q & _); elim (U _ Q)]. destruct K as [<-|[<-|[<-|[]]]]; now vm_compute.
    + split; [|intros (? & Q & _); elim (U _ Q)]. destruct K as [<-|[<-|[<-|[]]]]; now vm_compute.
    + split; [intros _ m Q; elim (U _ Q)|]. intros _. destruct K as [<-|[<-|[<-|[]]]]; now vm_compute.
Qed.
Definition matches (p : field * oddity) (r : bool * oddity) : Prop := snd p = snd r /\ (fst r = true <-> odd (fst p) (snd p)).
Lemma rows_match fs hs : Forall2 says fs hs -> Forall2 matches (list_prod fs oddities) (flat_map rows hs).
Proof.
  induction 1 as [|f h fs hs S _ IH]; [constructor|]. cbn [list_prod flat_map]. apply Forall2_app; [|exact IH].
  unfold rows, oddities. cbn [map]. repeat (constructor; [split; [reflexivity|now apply says_bit]|]). constructor.
Qed.
Lemma find_first L R F : Forall2 matches L R ->
  match find (fun r => fst r && (raises (snd r) =? F)) R with
  | Some r => exists f, first_such (fun p => odd (fst p) (snd p) /\ raises (snd p) = F) L (f, snd r)
  | None => forall f o, In (f, o) L -> odd f o -> raises o <> F
  end.
Proof.
  induction 1 as [|[f o] [b o'] L R [E1 E2] H IH]; cbn [find fst snd] in *; [easy|]. subst o'.
  destruct b; cbn [andb].
  - destruct (N.eqb_spec (raises o) F) as [E|E].
    + exists f, [], L. split; [reflexivity|]. split; [split; [now apply E2|exact E]|constructor].
    + destruct (find _ R) as [r|].
      * destruct IH as (g & bf & af & -> & Hp & Fb). exists g, ((f, o) :: bf), af. split; [reflexivity|]. split; [exact Hp|]. constructor; [intros [_ K]; contradiction|exact Fb].
      * intros f' o' [[= <- <-]|I] O; [exact E|]. eauto.
  - destruct (find _ R) as [r|].
    + destruct IH as (g & bf & af & -> & Hp & Fb). exists g, ((f, o) :: bf), af. split; [reflexivity|]. split; [exact Hp|].
      constructor; [intros [K _]; apply E2 in K; discriminate|exact Fb].
    + intros f' o' [[= <- <-]|I] O; [apply E2 in O; discriminate|]. eauto.
Qed.
Lemma told_flags sd fs hs t : Forall2 says fs hs ->
  (forall F, In F [FIELD_INVALID; INVALID_FOLDING; FIELD_UNPARSEABLE] ->
     (N.land (x_flags (add_headers sd hs t)) F <> 0 <-> N.land (x_flags t) F <> 0 \/ exists f o, In f fs /\ odd f o /\ raises o = F)) /\
  (forall i, (forall F, In F [FIELD_INVALID; INVALID_FOLDING; FIELD_UNPARSEABLE] -> N.testbit F i = false) ->
     N.testbit (x_flags (add_headers sd hs t)) i = N.testbit (x_flags t) i).
Proof.
  intro S. destruct (does_headers sd hs t) as [A1 A2 _]. split; [|exact A2]. intros F HF. rewrite <- !fis_land, A1, orb_true_iff by assumption.
  pose proof (find_first _ _ F (rows_match _ _ S)) as K. rewrite find_existsb. destruct (find _ _) as [r|].
  - destruct K as (f & bf & af & E & [O1 O2] & _). cbn [fst snd] in *. split; [|auto]. intros [H|_]; [now left|]. right. exists f, (snd r). split; [|split; assumption].
    assert (I : In (f, snd r) (list_prod fs oddities)) by (rewrite E; apply in_or_app; right; now left). now apply in_prod_iff in I.
  - split; [intros [H|H]; [now left|discriminate]|]. intros [H|(f & o & I & O & E)]; [now left|]. elim (K f o); [|exact O|exact E].
    apply in_prod_iff. split; [exact I|]. destruct o; cbn; auto.
Qed.
Lemma told_warnings sd fs hs t F : Forall2 says fs hs -> In F [FIELD_INVALID; INVALID_FOLDING; FIELD_UNPARSEABLE] ->
  (N.land (x_flags t) F <> 0 -> warnings_of sd F (add_headers_log sd hs t) = []) /\
  (N.land (x_flags t) F = 0 ->
     (forall f o, In f fs -> odd f o -> raises o <> F) /\ warnings_of sd F (add_headers_log sd hs t) = [] \/
     exists f o, first_odd fs F f o /\ warnings_of sd F (add_headers_log sd hs t) = [warning (warns sd o)]).
Proof.
  intros S HF. destruct (does_headers sd hs t) as [_ _ A3]. rewrite (A3 F HF).
  pose proof (find_first _ _ F (rows_match _ _ S)) as K. split.
  - intro H. apply fis_land in H. now rewrite H.
  - intro H. replace (fis_set (x_flags t) F) with false by (unfold fis_set; now rewrite H). destruct (find _ _) as [r|].
    + right. destruct K as (f & Hf). exists f, (snd r). split; [exact Hf|reflexivity].
    + left. split; [|reflexivity]. intros f o I. apply K. apply in_prod_iff. split; [exact I|]. destruct o; cbn; auto.
Qed.

(** ** The flags of stored headers *)
Definition own_flags (sd : side) (ph : pheader) : N := fold_left (fun h r => if fst r : bool then fold_left fset (marks sd (snd r)) h else h) (rows ph) 0.
Lemma own_marks sd f ph : says f ph -> own sd f (own_flags sd ph).
Proof.
  intros S flag HF. pose proof (fun o => says_bit f ph o S) as B.
  assert (A : N.land (own_flags sd ph) flag <> 0 <-> exists o, bit ph o = true /\ In flag (marks sd o)).
  { unfold own_flags, rows, oddities. cbn [map fold_left fst snd].
    assert (X : forall P : oddity -> Prop, (exists o, P o) <-> P BlankAfter \/ P BlankBefore \/ P NotToken \/ P NoName).
    { intro P. split; [intros [[] H]; auto|intros [H|[H|[H|H]]]; eauto]. }
    rewrite X. destruct (bit ph BlankAfter), (bit ph BlankBefore), (bit ph NotToken), (bit ph NoName), sd; destruct HF as [<-|[<-|[<-|[]]]];
    cbn [marks fold_left raises In]; vm_compute; split; intros; repeat match goal with H : _ \/ _ |- _ => destruct H | H : _ /\ _ |- _ => destruct H end; try discriminate; try congruence; intuition congruence. }
  rewrite A. split; intros (o & H1 & H2); exists o; (split; [now apply B|exact H2]).
Qed.
Lemma own_more sd f fl : own sd f fl -> own sd f (fset fl HF_FIELD_REPEATED).
Proof.
  intros H flag HF. rewrite <- (H flag HF). unfold fset. rewrite N.land_lor_distr_l.
  replace (N.land HF_FIELD_REPEATED flag) with 0 by (destruct HF as [<-|[<-|[<-|[]]]]; reflexivity). now rewrite N.lor_0_r.
Qed.
Lemma add_header_table sd ph t : t_headers (x_dir sd (fst (add_header sd ph t))) =
  t_headers (fst (merge_header sd (mk_header (hf_bytes (ph_name ph)) (hf_bytes (ph_value ph)) (own_flags sd ph)) (x_dir sd t))).
Proof.
  unfold add_header. destruct (header_flags_rows sd ph (x_flags t)) as (hf & -> & Eh). fold (own_flags sd ph) in Eh. subst hf.
  replace (x_dir sd (set_x_flags (fst (fold_left (put sd) (rows ph) (x_flags t, early sd ph))) t)) with (x_dir sd t) by (destruct sd, t; reflexivity).
  destruct (merge_header _ _ _) as [d lg]. cbn [fst]. destruct sd, t; reflexivity.
Qed.
Lemma update_first_in {A} (p : A -> bool) f l x : In x (update_first p f l) -> In x l \/ exists y, find p l = Some y /\ x = f y.
Proof.
  induction l as [|y l IH]; [now left|]. cbn [update_first find]. destruct (p y).
  - intros [<-|H]; [right; eauto|left; now right].
  - intros [<-|H]; [left; now left|]. destruct (IH H) as [K|K]; [left; now right|now right].
Qed.
Lemma update_first_keeps {A} (p : A -> bool) f l x : In x l -> In x (update_first p f l) \/ exists y, find p l = Some y /\ x = y /\ In (f y) (update_first p f l).
Proof.
  induction l as [|y l IH]; [easy|]. cbn [update_first find]. destruct (p y) eqn:E.
  - intros [<-|H]; [right; exists y; repeat split; now left|left; now right].
  - intros [<-|H]; [left; now left|]. destruct (IH H) as [K|(z & K1 & K2 & K3)]; [left; now right|right; exists z; repeat split; try assumption; now right].
Qed.
Definition pname (p : field * pheader) : bytes := hf_bytes (ph_name (snd p)).
Lemma says_tight f h : says f h -> tight (hf_bytes (ph_name h)).
Proof.
  assert (T : forall l m, trims_to c_space l m -> tight m).
  { intros l m (a & b & _ & _ & _ & H1 & H2). split; intros x m' E K; [apply (H1 _ _ E)|apply (H2 _ _ E)]; now left. }
  intros [n v more bl v1 N1 M1 T1 F1 V1 W1|N1 B1 V1 F1 W1]; [now apply (T n)|]. rewrite B1. split; intros x m E; [discriminate|now destruct m].
Qed.
Lemma stored_marks sd L t : Forall (fun p => says (fst p) (snd p)) L -> t_headers (x_dir sd t) = [] ->
  let tab := t_headers (x_dir sd (add_headers sd (map snd L) t)) in
  Forall (fun h => tight (hd_name h)) tab /\
  (forall p, In p L -> exists h, In h tab /\ lowers (hd_name h) = lowers (pname p)) /\
  (forall h, In h tab -> exists a f ph b, L = a ++ (f, ph) :: b /\ hd_name h = pname (f, ph) /\
     (forall g, In g a -> lowers (pname g) <> lowers (hd_name h)) /\ own sd f (hd_flags h)).
Proof.
  intros H E0. induction L as [|p L IH] using rev_ind.
  - cbn. unfold add_headers. cbn [fold_left]. rewrite E0. split; [constructor|]. split; intros ? [].
  - apply Forall_app in H as [H Hp]. inversion Hp as [|? ? Hs _]; subst. specialize (IH H). cbv zeta in *. destruct IH as (I1 & I2 & I3).
    rewrite map_app. unfold add_headers in *. rewrite fold_left_app. cbn [map fold_left]. rewrite add_header_table.
    set (tab := t_headers (x_dir sd (fold_left (fun t h => fst (add_header sd h t)) (map snd L) t))) in *.
    assert (Old : forall h, In h tab -> exists a f ph b, L ++ [p] = a ++ (f, ph) :: b /\ hd_name h = pname (f, ph) /\
      (forall g, In g a -> lowers (pname g) <> lowers (hd_name h)) /\ own sd f (hd_flags h)).
    { intros h Hh. destruct (I3 h Hh) as (a & f & ph & b & -> & K). exists a, f, ph, (b ++ [p]). rewrite <- app_assoc. split; [reflexivity|exact K]. }
    assert (Cmp : forall x, In x tab -> is_eq (cmp_nocase_trimmed (hd_name x) (pname p)) = true <-> lowers (hd_name x) = lowers (pname p)).
    { intros x Hx. rewrite Forall_forall in I1. rewrite ProofsTx.cmp_tight by (now apply I1). apply ProofsBase.bytes_eqb_eq. }
    unfold merge_header. fold tab. cbn [hd_name hd_value hd_flags]. fold (pname p). unfold headers_get_nocase.
    destruct (find _ tab) as [ex|] eqn:Ef.
    + pose proof (find_some _ _ Ef) as [Iex Mex]. apply Cmp in Mex; [|exact Iex].
      destruct (_ && _).
      * fold tab. split; [exact I1|]. split; [|exact Old]. intros q Hq. apply in_app_iff in Hq as [Hq|[<-|[]]]; [now apply I2|eauto].
      * cbn [fst]. set (ex' := mk_header _ _ _).
        replace (t_headers (set_t_reps _ (set_t_headers (update_first (fun x => is_eq (cmp_nocase_trimmed (hd_name x) (pname p))) (fun _ => ex') tab) (x_dir sd (fold_left (fun t0 h => fst (add_header sd h t0)) (map snd L) t)))))
          with (update_first (fun x => is_eq (cmp_nocase_trimmed (hd_name x) (pname p))) (fun _ => ex') tab) by (destruct (x_dir sd _); reflexivity).
        assert (Iex' : forall y, find (fun x => is_eq (cmp_nocase_trimmed (hd_name x) (pname p))) tab = Some y -> y = ex) by (intros y Ey; congruence).
        split; [|split].
        -- apply Forall_forall. intros x Hx. rewrite Forall_forall in I1. apply update_first_in in Hx as [Hx|(y & Ey & ->)]; [now apply I1|]. exact (I1 _ Iex).
        -- assert (Q : forall x, In x tab -> exists h, In h (update_first (fun x => is_eq (cmp_nocase_trimmed (hd_name x) (pname p))) (fun _ => ex') tab) /\ hd_name h = hd_name x).
           { intros x Hx. destruct (update_first_keeps (fun x => is_eq (cmp_nocase_trimmed (hd_name x) (pname p))) (fun _ => ex') tab x Hx) as [K|(y & K1 & -> & K3)]; [eauto|].
             exists ex'. split; [exact K3|]. now rewrite (Iex' _ K1). }
           intros q Hq. apply in_app_iff in Hq as [Hq|[<-|[]]].
           ++ destruct (I2 _ Hq) as (h & Hh & Eh). destruct (Q _ Hh) as (h' & Hh' & En). exists h'. split; [exact Hh'|congruence].
           ++ destruct (Q _ Iex) as (h' & Hh' & En). exists h'. split; [exact Hh'|congruence].
        -- intros h Hh. apply update_first_in in Hh as [Hh|(y & Ey & ->)]; [now apply Old|].
           destruct (Old _ Iex) as (a & f & ph & b & K1 & K2 & K3 & K4). exists a, f, ph, b. split; [exact K1|]. split; [exact K2|]. split; [exact K3|].
           now apply own_more.
    + cbn [fst]. replace (t_headers (set_t_headers _ _)) with (tab ++ [mk_header (pname p) (hf_bytes (ph_value (snd p))) (own_flags sd (snd p))]) by (destruct (x_dir sd _); reflexivity).
      split; [|split].
      * apply Forall_app. split; [exact I1|]. constructor; [exact (says_tight _ _ Hs)|constructor].
      * intros q Hq. apply in_app_iff in Hq as [Hq|[<-|[]]].
        -- destruct (I2 _ Hq) as (h & Hh & Eh). exists h. split; [apply in_or_app; now left|exact Eh].
        -- eexists. split; [apply in_or_app; right; now left|reflexivity].
      * intros h Hh. apply in_app_iff in Hh as [Hh|[<-|[]]]; [now apply Old|]. destruct p as [f ph]. exists L, f, ph, []. split; [reflexivity|]. split; [reflexivity|].
        split; [|now apply own_marks]. intros g Hg K. destruct (I2 _ Hg) as (h & Hh & Eh).
        pose proof (find_none _ _ Ef _ Hh) as N0. cbn beta in N0. cbn [hd_name] in K. assert (T : is_eq (cmp_nocase_trimmed (hd_name h) (pname (f, ph))) = true) by (apply Cmp; [exact Hh|congruence]).
        unfold pname in *. cbn [snd] in *. congruence.
Qed.
Lemma stored_own sd fs hs t : Forall2 says fs hs -> t_headers (x_dir sd t) = [] ->
  forall h, In h (t_headers (x_dir sd (add_headers sd hs t))) -> exists a f ph b, combine fs hs = a ++ (f, ph) :: b /\
    hd_name h = hf_bytes (ph_name ph) /\ (forall g, In g a -> lowers (hf_bytes (ph_name (snd g))) <> lowers (hd_name h)) /\ own sd f (hd_flags h).
Proof.
  intros S E0. assert (A : Forall (fun p => says (fst p) (snd p)) (combine fs hs) /\ map snd (combine fs hs) = hs).
  { clear -S. induction S as [|f h fs hs H _ [I1 I2]]; [split; constructor|]. cbn [combine map]. split; [now constructor|]. cbn. now rewrite I2. }
  destruct A as [A1 A2]. destruct (stored_marks sd (combine fs hs) t A1 E0) as (_ & _ & K). rewrite A2 in K. exact K.
Qed.
(** ** An empty name is never reported as such *)
Definition names_empty (m : logmsg) : Prop := lg_code m = "REQUEST_INVALID_EMPTY_NAME"%string \/ lg_code m = "RESPONSE_INVALID_EMPTY_NAME"%string.
Lemma put_quiet sd R : forall a, Forall (fun m => ~ names_empty m) (snd a) -> Forall (fun m => ~ names_empty m) (snd (fold_left (put sd) R a)).
Proof.
  induction R as [|[b o] R IH]; intros a H; [exact H|]. cbn [fold_left]. apply IH. unfold put. cbn [fst snd]. destruct b; [|exact H]. cbn [snd].
  apply Forall_app. split; [exact H|]. unfold warn_if. destruct (negb _); [|constructor]. constructor; [|constructor]. intros [K|K]; destruct sd, o; discriminate.
Qed.
Lemma empty_unreported sd hs : forall t, Forall (fun m => ~ names_empty m) (add_headers_log sd hs t).
Proof.
  induction hs as [|h hs IH]; intro t; [constructor|]. cbn [add_headers_log]. apply Forall_app. split; [|apply IH].
  unfold add_header. destruct (header_flags_rows sd h (x_flags t)) as (hf & -> & _).
  destruct (merge_header sd _ _) as [d lg] eqn:E. cbn [snd]. apply Forall_app. split.
  - apply put_quiet. cbn [snd]. destruct sd; [constructor|]. unfold early, warn_if. destruct (_ || _); [|constructor]. constructor; [intros [K|K]; discriminate|constructor].
  - unfold merge_header in E. destruct (headers_get_nocase _ _) as [ex|]; [|injection E as _ <-; constructor].
    destruct (_ && _); [injection E as _ <-; constructor|]. injection E as _ <-. apply Forall_app. unfold warn_if. split.
    + destruct (_ && _); [|constructor]. constructor; [|constructor]. intros [K|K]; destruct sd; discriminate.
    + destruct (negb _); [|constructor]. constructor; [|constructor]. intros [K|K]; destruct sd; discriminate.
Qed.
