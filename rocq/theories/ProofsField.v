(** C76: the header parser reads the fields of SpecField. *)
From Verif Require ProofsParsers ProofsBstr.
From Verif Require Import Base ModelUtil ModelHeaders Spec ProofsBase ProofsHeaders SpecField.

Ltac eqs := repeat match goal with
  | H : ?a <> ?b |- context[?a =? ?b] => replace (a =? b) with false by lia
  | H : ?b <> ?a |- context[?a =? ?b] => replace (a =? b) with false by lia
  | |- context[?a =? ?b] => let x := eval vm_compute in (a =? b) in
      match x with true => change (a =? b) with true | false => change (a =? b) with false end end.

Definition ends (sd : side) (cr : bool) (t t' : bytes) : Prop :=
  exists e, folding_or_terminator sd false (ending cr ++ t) = POk t' ((e, 0), None) /\ (cr = true -> (1 < length e)%nat).

Lemma eol_folds sd cr b t : fold_byte b ->
  folding_or_terminator sd false (ending cr ++ b :: t) = POk t ((ending cr, HF_FOLDING), Some [b]).
Proof.
  intro Hb. unfold folding_or_terminator, pmap, p_alt, pbind, folding.
  assert (L : folding_lws (b :: t) = POk t ([b], HF_FOLDING)).
  { unfold folding_lws, pbind, p_alt, tag_s, pret. cbn [tag_s_aux]. destruct Hb as [-> | [-> | ->]]; reflexivity. }
  assert (H13 : b <> 13) by (unfold fold_byte in Hb; lia).
  destruct sd, cr; unfold complete_eol, complete_eol_deformed, complete_eol_regular, p_alt, pbind, tag_c, pret;
    cbn [ending strip_prefix app]; eqs; cbn [snd fst]; rewrite L; reflexivity.
Qed.
(** The next field, or the empty line, ends the field before it. *)
Lemma ends_line sd cr c r : ~ fold_byte c -> c <> 13 -> ends sd cr (c :: r) (c :: r).
Proof.
  intros Hb H13. assert (c <> 32 /\ c <> 9 /\ c <> 0) as (H1 & H2 & H3) by (unfold fold_byte in Hb; lia).
  exists (ending cr). split; [|destruct cr; cbn; [lia|discriminate]].
  unfold folding_or_terminator, pmap, p_alt, pbind, folding.
  assert (C : complete_eol sd (ending cr ++ c :: r) = POk (c :: r) (ending cr, 0)).
  { unfold complete_eol, complete_eol_deformed, folding_empty, complete_eol_regular, p_alt, pbind, tag_c, pret, one_of_c.
    assert (M : memb c [9; 32] = false) by (unfold memb; cbn [existsb]; lia).
    destruct sd, cr; cbn [ending strip_prefix app]; eqs; cbv beta iota; rewrite ?M; cbv beta iota; eqs; reflexivity. }
  assert (E : null_or_eol sd (ending cr ++ c :: r) = POk (c :: r) (ending cr, 0)).
  { unfold null_or_eol, h_eol, p_alt, pbind. rewrite C. unfold p_not. rewrite lws_err by assumption.
    unfold h_null, tag_c, pbind. destruct cr; reflexivity. }
  rewrite E. destruct sd; cbv beta iota; unfold pbind; [rewrite C; cbn [fst snd]; now rewrite lws_err by assumption|].
  unfold complete_eol_regular, p_alt, tag_c. destruct cr; cbn [ending strip_prefix app]; eqs; cbv beta iota; eqs; cbv beta iota; now rewrite lws_err by assumption.
Qed.
Lemma ends_empty sd cr cr' tail : exists t', ends sd cr (ending cr' ++ tail) t' /\
  (tail_ok sd cr' tail -> exists e, complete_eol sd t' = POk tail e).
Proof.
  assert (C : tail_ok sd cr' tail -> exists e, complete_eol sd (ending cr' ++ tail) = POk tail e).
  { intro H. destruct sd.
    - destruct cr'.
      + eexists. now apply (end_of_block SReq tail); left.
      + unfold complete_eol, complete_eol_deformed, complete_eol_regular, p_alt, pbind, tag_c, pret, p_peek, lf_or_crlf, p_alt, tag_c.
        cbn [ending app strip_prefix]. eqs. specialize (H eq_refl). cbn [app] in H.
        destruct tail as [|a [|b [|c tail]]]; try (now eexists);
          repeat match goal with |- context[?x =? ?y] => destruct (N.eqb_spec x y); subst end; try (now eexists); now elim (H tail).
    - cbn [tail_ok] in H. destruct cr'.
      + eexists. apply (end_of_block SResp tail). now right.
      + destruct H as [H1 H2].
        unfold complete_eol, complete_eol_deformed, folding_empty, complete_eol_regular, p_alt, pbind, tag_c, pret, p_peek, lf_or_crlf, p_alt, tag_c, one_of_c.
        cbn [ending app strip_prefix]. eqs. destruct tail as [|a tail]; [now eexists|].
        destruct (N.eqb_spec 13 a) as [<-|]; [now elim (H1 tail)|].
        destruct (memb a [9; 32]) eqn:M; [|now eexists].
        assert (sp_or_tab a) by (unfold memb in M; cbn [existsb] in M; unfold sp_or_tab; lia).
        destruct tail as [|b tail]; [now eexists|]. cbn [strip_prefix].
        destruct (N.eqb_spec 13 b) as [<-|]; [now elim (H2 a 13 tail); auto|].
        destruct (N.eqb_spec 10 b) as [<-|]; [now elim (H2 a 10 tail); auto|]. now eexists. }
  destruct cr'.
  2: { exists (ending false ++ tail). split; [|exact C]. cbn [ending app]. apply ends_line; unfold fold_byte; lia. }
  destruct sd.
  - exists (ending true ++ tail). split; [|exact C]. exists (ending cr). split; [|destruct cr; cbn; [lia|discriminate]].
    destruct cr; reflexivity.
  - destruct cr.
    + exists (ending true ++ tail). split; [|exact C]. exists [13; 10]. split; [|cbn; lia].
      apply (crlf_terminates SResp). exists 13, (10 :: tail). repeat split; try lia. eauto.
    + exists (10 :: tail). split.
      * exists [10; 13]. split; [|discriminate]. reflexivity.
      * intro H. destruct H as [H1 H2].
        unfold complete_eol, complete_eol_deformed, folding_empty, complete_eol_regular, p_alt, pbind, tag_c, pret, p_peek, lf_or_crlf, p_alt, tag_c, one_of_c.
        cbn [ending app strip_prefix]. eqs. destruct tail as [|a tail]; [now eexists|].
        destruct (N.eqb_spec 13 a) as [<-|]; [now elim (H1 tail)|].
        destruct (memb a [9; 32]) eqn:M; [|now eexists].
        assert (sp_or_tab a) by (unfold memb in M; cbn [existsb] in M; unfold sp_or_tab; lia).
        destruct tail as [|b tail]; [now eexists|]. cbn [strip_prefix].
        destruct (N.eqb_spec 13 b) as [<-|]; [now elim (H2 a 13 tail); auto|].
        destruct (N.eqb_spec 10 b) as [<-|]; [now elim (H2 a 10 tail); auto|]. now eexists.
Qed.

Lemma value_bytes_at sd V cr t : plain V ->
  value_bytes sd false (V ++ ending cr ++ t) =
  match folding_or_terminator sd false (ending cr ++ t) with POk r res => POk r (V, res) | PErr => PErr | PInc => PInc end.
Proof.
  intro HV. destruct cr; [now apply (value_bytes_app sd V t)|].
  unfold value_bytes, take_till_s, take_while_s. cbn [ending app].
  rewrite (span_app _ V (10 :: t)).
  - destruct (last_byte V) eqn:L; [|reflexivity]. now rewrite (no_crlf_last _ _ HV L).
  - revert HV. apply Forall_impl. unfold h_is_eol, is_resp. destruct sd; lia.
  - intros x b' [= <- _]. reflexivity.
Qed.

(** A continuation line that is not header-like is read as text. *)
Lemma not_header V cr t (X : bytes * bytes * bytes -> option (pres hfield)) (Y : option (pres hfield)) : plain V -> ~ header_like V ->
  match (plet u := token_chars in plet s := separator_regular in pret u) (V ++ ending cr ++ t) with
  | POk _ (_, tokens, _) => match tokens with [] => Y | _ => X ([], tokens, []) end
  | PInc => Some PInc
  | PErr => Y
  end = Y.
Proof.
  intros HV Hh.
  assert (G : forall q, plain q -> forall p, (forall c, p c = true -> c <> 13 /\ c <> 10) ->
    exists a q', q = a ++ q' /\ Forall (fun c => p c = true) a /\ take_while_s p (q ++ ending cr ++ t) = POk (q' ++ ending cr ++ t) a /\ plain q').
  { clear. intros q Hq p Hp. unfold take_while_s. destruct (span p q) as [a b] eqn:E. apply span_spec in E as (-> & Ha & Hb).
    apply Forall_app in Hq as [_ Hq]. exists a, b. split; [reflexivity|]. split; [assumption|]. split; [|assumption].
    rewrite <- app_assoc. rewrite (span_app p a (b ++ ending cr ++ t)); [destruct b, cr; reflexivity|assumption|].
    intros x m Ex. destruct b as [|y b]; [|cbn in Ex; injection Ex as <- _; now apply (Hb _ _ eq_refl)].
    destruct (p x) eqn:P; [|reflexivity]. apply Hp in P. destruct cr; cbn in Ex; injection Ex as <- _; lia. }
  unfold pbind at 1, token_chars. unfold pbind at 1, space0_s.
  destruct (G V HV nom_is_space) as (a1 & q1 & E1 & A1 & -> & H1); [intros c; unfold nom_is_space; lia|].
  unfold pbind at 1. destruct (G q1 H1 is_token) as (a2 & q2 & E2 & A2 & -> & H2).
  { intros c P. split; intros ->; vm_compute in P; discriminate. }
  unfold pbind at 1. destruct (G q2 H2 nom_is_space) as (a3 & q3 & E3 & A3 & -> & H3); [intros c; unfold nom_is_space; lia|].
  unfold pret at 1. unfold pbind at 1, separator_regular. unfold pbind at 1, tag_c.
  assert (Q : match strip_prefix [58] (q3 ++ ending cr ++ t) with Some r => a2 = [] /\ exists w, q3 = 58 :: w /\ r = w ++ ending cr ++ t | None => True end).
  { destruct q3 as [|x q3]; [destruct cr; exact I|]. cbn [app strip_prefix]. destruct (N.eqb_spec 58 x) as [<-|]; [|exact I].
    split; [|eauto]. destruct a2 as [|y a2]; [reflexivity|]. elim Hh. subst V q1 q2. exists a1, (y :: a2), a3, q3. split; [reflexivity|].
    split; [revert A1; apply Forall_impl; unfold nom_is_space, sp_or_tab; lia|]. split; [easy|].
    split; [revert A2; apply Forall_impl; intros c P; now apply is_token_spec|].
    revert A3; apply Forall_impl; unfold nom_is_space, sp_or_tab; lia. }
  destruct (strip_prefix [58] (q3 ++ ending cr ++ t)) as [r|]; [|reflexivity]. destruct Q as (-> & w & Ew & ->).
  unfold pbind at 1, space0_s. assert (Hw : plain w) by (rewrite Ew in H3; now inversion H3).
  destruct (G w Hw nom_is_space) as (a4 & q4 & E4 & A4 & -> & H4); [intros c; unfold nom_is_space; lia|]. reflexivity.
Qed.

Definition more_ok (sd : side) (c : cline) : Prop :=
  fold_byte (cl_byte c) /\ plain (cl_text c) /\ (cl_text c = [] -> cl_cr c = true) /\ (sd = SResp -> ~ header_like (cl_text c)).
Definition lines_text (more : list cline) : bytes := concat (map cline_text more).
Lemma lines_text_cons c more : lines_text (c :: more) = cl_byte c :: cl_text c ++ ending (cl_cr c) ++ lines_text more.
Proof. unfold lines_text. cbn [map concat]. unfold cline_text at 1. cbn [app]. now rewrite <- app_assoc. Qed.
Lemma value_bytes_next sd V cr more t t' : plain V -> Forall (more_ok sd) more -> ends sd (last (map cl_cr more) cr) t t' ->
  match more with
  | [] => exists e, value_bytes sd false (V ++ ending cr ++ lines_text more ++ t) = POk t' (V, ((e, 0), None)) /\ (cr = true -> (1 < length e)%nat)
  | c :: more' => value_bytes sd false (V ++ ending cr ++ lines_text more ++ t) =
      POk (cl_text c ++ ending (cl_cr c) ++ lines_text more' ++ t) (V, ((ending cr, HF_FOLDING), Some [cl_byte c]))
  end.
Proof.
  intros HV Hm He. destruct more as [|c more].
  - destruct He as (e & He & Hl). exists e. split; [|exact Hl]. cbn [lines_text map concat app]. rewrite value_bytes_at by assumption.
    cbn [last map] in He. now rewrite He.
  - inversion Hm as [|? ? (H1 & _) _]; subst. rewrite lines_text_cons. cbn [app]. rewrite <- !app_assoc.
    rewrite value_bytes_at by assumption. now rewrite eol_folds by assumption.
Qed.
Lemma last_cons_map (cr : bool) c more : last (map cl_cr (c :: more)) cr = last (map cl_cr more) (cl_cr c).
Proof.
  cbn [map]. generalize (cl_cr c) (map cl_cr more). clear. intros b l. revert b cr. induction l as [|d l IH]; intros b cr; [reflexivity|].
  change (last (b :: d :: l) cr) with (last (d :: l) cr). now rewrite (IH d cr), (IH d b).
Qed.
Lemma value_loop_lines sd t t' more : Forall (more_ok sd) more ->
  forall b V cr rest value fuel, plain V -> (V = [] -> cr = true) -> (sd = SResp -> ~ header_like V) ->
  ends sd (last (map cl_cr more) cr) t t' -> (length more < fuel)%nat ->
  value_loop fuel sd false rest (V ++ ending cr ++ lines_text more ++ t) [b] value HF_FOLDING =
  Some (POk t' (hf_new (joined value (mk_cl b V cr :: more)) HF_FOLDING)).
Proof.
  induction 1 as [|c more Hc Hm IH]; intros b V cr rest value fuel HV Hk Hh He Hf; (destruct fuel as [|fuel]; [cbn in Hf; lia|]); cbn [value_loop].
  - assert (S : forall Y, (if is_resp sd then match (plet t0 := token_chars in plet s := separator_regular in pret t0) (V ++ ending cr ++ lines_text [] ++ t) with
      | POk _ (_, tokens, _) => match tokens with [] => Y | _ => Some (POk (V ++ ending cr ++ lines_text [] ++ t)
          (hf_new value (match value with [] => fset (funset HF_FOLDING HF_FOLDING_SPECIAL_CASE) HF_VALUE_EMPTY | _ => funset HF_FOLDING HF_FOLDING_SPECIAL_CASE end))) end
      | PErr => Y | PInc => Some PInc end else Y) = Y).
    { intro Y. destruct sd; [reflexivity|]. cbn [is_resp]. apply not_header with (X := fun _ => _); [assumption|now apply Hh]. }
    rewrite S. clear S. destruct (value_bytes_next sd V cr [] t t' HV (Forall_nil _) He) as (e & E & Hl). rewrite E. clear E.
    assert (K : negb (match V with [] => true | _ => false end) || (1 <? length e)%nat = true).
    { destruct V; [|reflexivity]. specialize (Hl (Hk eq_refl)). cbn [negb orb]. apply Nat.ltb_lt. exact Hl. }
    rewrite K. change (fset HF_FOLDING 0) with HF_FOLDING. cbn [joined cl_text cl_byte].
    destruct value; [reflexivity|]. now rewrite <- app_assoc.
  - assert (S : forall Y, (if is_resp sd then match (plet t0 := token_chars in plet s := separator_regular in pret t0) (V ++ ending cr ++ lines_text (c :: more) ++ t) with
      | POk _ (_, tokens, _) => match tokens with [] => Y | _ => Some (POk (V ++ ending cr ++ lines_text (c :: more) ++ t)
          (hf_new value (match value with [] => fset (funset HF_FOLDING HF_FOLDING_SPECIAL_CASE) HF_VALUE_EMPTY | _ => funset HF_FOLDING HF_FOLDING_SPECIAL_CASE end))) end
      | PErr => Y | PInc => Some PInc end else Y) = Y).
    { intro Y. destruct sd; [reflexivity|]. cbn [is_resp]. apply not_header with (X := fun _ => _); [assumption|now apply Hh]. }
    rewrite S. clear S. pose proof (value_bytes_next sd V cr (c :: more) t t' HV (Forall_cons _ Hc Hm) He) as E. cbn match in E. rewrite E. clear E.
    assert (K : negb (match V with [] => true | _ => false end) || (1 <? length (ending cr))%nat = true).
    { destruct V; [|reflexivity]. now rewrite (Hk eq_refl). }
    rewrite K. change (fset HF_FOLDING HF_FOLDING) with HF_FOLDING. cbn match.
    destruct Hc as (C1 & C2 & C3 & C4). rewrite last_cons_map in He.
    rewrite IH; [|assumption|assumption|assumption|assumption|cbn in Hf; lia].
    cbn [joined cl_text cl_byte]. destruct value; [reflexivity|]. rewrite <- app_assoc. reflexivity.
Qed.
Lemma lines_text_length more : (length more <= length (lines_text more))%nat.
Proof. induction more as [|c more IH]; [cbn; lia|]. rewrite lines_text_cons. cbn [length]. rewrite !app_length. lia. Qed.
Lemma h_value_lines sd V cr more t t' : plain V -> Forall (more_ok sd) more -> ends sd (last (map cl_cr more) cr) t t' ->
  h_value sd false (V ++ ending cr ++ lines_text more ++ t) = Some (POk t' (hf_new (joined V more) (value_flags V more))).
Proof.
  intros HV Hm He. unfold h_value. pose proof (value_bytes_next sd V cr more t t' HV Hm He) as E. destruct more as [|c more].
  - destruct E as (e & -> & _). cbn [joined value_flags]. destruct V; reflexivity.
  - rewrite E. inversion Hm as [|? ? (C1 & C2 & C3 & C4) Hm']; subst. rewrite last_cons_map in He.
    rewrite value_loop_lines with (t' := t'); [destruct c; reflexivity|assumption|assumption|assumption|assumption|assumption|].
    rewrite !app_length. pose proof (lines_text_length more). lia.
Qed.

(** ** Names *)
Lemma named_text a cr more n v more' : named a cr more n v more' ->
  exists cr', a ++ ending cr ++ lines_text more = n ++ 58 :: v ++ ending cr' ++ lines_text more' /\ last (map cl_cr more) cr = last (map cl_cr more') cr'.
Proof.
  induction 1 as [n v cr more H|a cr c cr' more n v more' Ha H (cr'' & IH & IL)].
  - exists cr. now rewrite <- app_assoc.
  - exists cr''. rewrite last_cons_map. cbn [cl_cr]. split; [|exact IL]. rewrite lines_text_cons. cbn [cl_byte cl_text cl_cr].
    rewrite <- !app_assoc. f_equal. f_equal. exact IH.
Qed.
Lemma name_ok_app a n : Forall (fun c => c <> 58 /\ c <> 10) a -> name_ok n -> name_ok (a ++ n).
Proof. induction 1 as [|c a [H1 H2] _ IH]; [easy|]. intro Hn. cbn [app]. constructor; auto. Qed.
Lemma plain_no58 a : plain a -> ~ In 58 a -> Forall (fun c => c <> 58 /\ c <> 10) a.
Proof. unfold plain. rewrite !Forall_forall. intros H Hn x Hx. specialize (H x Hx). split; [now intros ->|lia]. Qed.
Lemma named_name_ok a cr more n v more' : named a cr more n v more' -> plain a -> Forall (fun c => plain (cl_text c)) more ->
  name_ok n /\ plain v /\ (forall l, a = 32 :: l -> exists n', n = 32 :: n' /\ name_ok n').
Proof.
  induction 1 as [n v cr more H|a cr c cr' more n v more' Ha H IH]; intros Hp Hm.
  - apply Forall_app in Hp as [Hp Hv]. inversion Hv as [|? ? _ Hv']; subst. pose proof (plain_no58 _ Hp H) as Hn. split.
    + rewrite <- (app_nil_r n). apply name_ok_app; [assumption|constructor].
    + split; [exact Hv'|]. intros l E. destruct n as [|x n]; cbn in E; [discriminate|injection E as -> E]. exists n. split; [reflexivity|].
      inversion Hn; subst. rewrite <- (app_nil_r n). apply name_ok_app; [assumption|constructor].
  - inversion Hm as [|? ? Hc Hm']; subst. cbn [cl_text] in Hc. destruct IH as (IH1 & IH2 & IH3); [constructor; [lia|exact Hc]|exact Hm'|].
    destruct (IH3 _ eq_refl) as (n' & -> & Hn').
    assert (T : name_ok (ending cr ++ 32 :: n')) by (destruct cr; cbn [ending app]; [constructor; [lia|lia|]|]; now constructor).
    pose proof (plain_no58 _ Hp Ha) as Hn. split; [now apply name_ok_app|]. split; [exact IH2|].
    intros l ->. cbn [app]. inversion Hn; subst. eexists. split; [reflexivity|]. now apply name_ok_app.
Qed.
Lemma named_det a cr more n v more' : named a cr more n v more' -> forall n2 v2 more2, named a cr more n2 v2 more2 ->
  n2 = n /\ v2 = v /\ more2 = more'.
Proof.
  induction 1 as [n v cr more H|a cr c cr' more n v more' Ha H IH]; intros n2 v2 more2 H2.
  - remember (n ++ 58 :: v) as a eqn:E. destruct H2 as [n2 v2 cr2 m2 H2|a cr2 c cr' m2 n2 v2 more2 H2 _].
    + clear -H H2 E. revert n2 E H2. induction n as [|x n IHn]; intros [|y n2] E H2; cbn in E; injection E; intros; subst.
      * auto.
      * elim H2. now left.
      * elim H. now left.
      * destruct (IHn ltac:(intro; apply H; now right) n2) as (-> & -> & _); [assumption|intro; apply H2; now right|auto].
    + subst. elim H2. apply in_or_app. right. now left.
  - remember (mk_cl 32 c cr' :: more) as m eqn:E. destruct H2 as [n2 v2 cr2 m2 H2|a cr2 c2 cr2' m2 n2 v2 more2 H2 H2'].
    + elim Ha. apply in_or_app. right. now left.
    + injection E as -> -> ->. destruct (IH _ _ _ H2') as (-> & -> & ->). auto.
Qed.
Lemma in_split_first (x : N) l : In x l -> exists a b, l = a ++ x :: b /\ ~ In x a.
Proof.
  induction l as [|y l IH]; [easy|]. intro H. destruct (N.eq_dec y x) as [->|Hn]; [exists [], l; auto|].
  destruct H as [->|H]; [easy|]. destruct (IH H) as (a & b & -> & Ha). exists (y :: a), b. split; [reflexivity|].
  intros [->|I]; [easy|auto].
Qed.
Lemma named_dec a cr more : (exists n v more', named a cr more n v more') \/ (forall n v more', ~ named a cr more n v more').
Proof.
  revert a cr. induction more as [|c more IH]; intros a cr.
  - destruct (in_dec N.eq_dec 58 a) as [I|I].
    + left. apply in_split_first in I. destruct I as (n & v & -> & Hn). eexists _, _, _. now constructor.
    + right. intros n v more' H. inversion H; subst. elim I. apply in_or_app. right. now left.
  - destruct (in_dec N.eq_dec 58 a) as [I|I].
    + left. apply in_split_first in I. destruct I as (n & v & -> & Hn). eexists _, _, _. now constructor.
    + destruct c as [b c cr']. destruct (N.eq_dec b 32) as [->|Hb].
      * destruct (IH (32 :: c) cr') as [(n & v & more' & H)|H].
        -- left. eexists _, _, _. constructor; eassumption.
        -- right. intros n v more' H'. inversion H'; subst; [elim I; apply in_or_app; right; now left|]. eapply H; eassumption.
      * right. intros n v more' H. inversion H; subst; [elim I; apply in_or_app; right; now left|]. easy.
Qed.

Lemma named_more (P : cline -> Prop) a cr more n v more' : named a cr more n v more' -> Forall P more -> Forall P more'.
Proof. induction 1; intro F; [assumption|]. inversion F; subst. auto. Qed.
Lemma field_more sd f more : field_ok sd f -> value_lines f more -> Forall (more_ok sd) more.
Proof.
  intros (_ & _ & H3 & H4) V.
  assert (L : Forall line_ok more) by (destruct V as [(n & v & K)|[_ ->]]; [exact (named_more _ _ _ _ _ _ _ K H3)|exact H3]).
  rewrite Forall_forall in *. intros c Hc. destruct (L _ Hc) as (L1 & L2 & L3). repeat split; try assumption.
  intros E. specialize (H4 E _ V). rewrite Forall_forall in H4. now apply H4.
Qed.

(** ** A field without a name *)
Lemma name_end_app' a pos r : Forall (fun c => c <> 58 /\ c <> 10) a -> name_end pos false (a ++ r) = name_end (pos + length a) false r.
Proof.
  revert pos; induction a as [|c a IH]; intros pos H; cbn [app length]; [now rewrite Nat.add_0_r|].
  inversion H as [|? ? [H1 H2] H3]; subst. cbn [name_end]. eqs. rewrite IH by assumption. f_equal. lia.
Qed.
Lemma unnamed_end more : forall a cr t pos, plain a -> Forall (fun c => plain (cl_text c)) more ->
  (forall n v more', ~ named a cr more n v more') -> (exists c r, t = c :: r /\ c <> 32) ->
  exists p q, name_end pos false (a ++ ending cr ++ lines_text more ++ t) = (pos + length p)%nat /\
    a ++ ending cr ++ lines_text more ++ t = p ++ 10 :: q.
Proof.
  induction more as [|c more IH]; intros a cr t pos Hp Hm Hn Ht.
  - assert (Ha : Forall (fun c => c <> 58 /\ c <> 10) a).
    { apply plain_no58; [assumption|]. intro I. apply in_split_first in I as (n & v & -> & I). eapply Hn. now constructor. }
    destruct Ht as (c & r & -> & Hc). rewrite name_end_app' by assumption. cbn [lines_text map concat app].
    exists (if cr then a ++ [13] else a), (c :: r). destruct cr; cbn [ending app name_end]; eqs.
    + split; [rewrite app_length; cbn; lia|]. now rewrite <- app_assoc.
    + split; [lia|reflexivity].
  - assert (Ha : Forall (fun c => c <> 58 /\ c <> 10) a).
    { apply plain_no58; [assumption|]. intro I. apply in_split_first in I as (n & v & -> & I). eapply Hn. now constructor. }
    inversion Hm as [|? ? Hc Hm']; subst. destruct c as [b c cr']. cbn [cl_text] in Hc.
    rewrite name_end_app' by assumption. rewrite lines_text_cons. cbn [cl_byte cl_text cl_cr].
    destruct (N.eq_dec b 32) as [->|Hb].
    + destruct (IH (32 :: c) cr' t (pos + length a + length (ending cr))%nat) as (p & q & E1 & E2).
      * constructor; [lia|exact Hc].
      * exact Hm'.
      * intros n v more' H. eapply Hn. constructor; [|exact H]. intro I. rewrite Forall_forall in Ha. now apply Ha in I.
      * exact Ht.
      * exists (a ++ ending cr ++ p), q. rewrite <- !app_assoc. cbn [app] in E2 |- *. split; [|now rewrite <- E2, <- ?app_assoc].
        cbn [app name_end] in E1. change (32 =? 58) with false in E1. change (32 =? 10) with false in E1. cbv beta iota in E1.
        rewrite !app_length. destruct cr; cbn [ending app name_end length] in *; eqs; cbv beta iota; eqs; cbv beta iota;
          rewrite <- ?app_assoc; rewrite <- ?app_assoc in E1.
        -- replace (S (S (S (pos + length a)))) with (S (pos + length a + 2)) by lia. rewrite E1. lia.
        -- replace (S (S (pos + length a))) with (S (pos + length a + 1)) by lia. rewrite E1. lia.
    + exists (if cr then a ++ [13] else a), ((b :: c ++ ending cr' ++ lines_text more) ++ t). destruct cr; cbn [ending app name_end]; eqs.
      * split; [rewrite app_length; cbn; lia|]. rewrite <- (app_assoc a [13]). reflexivity.
      * split; [lia|reflexivity].
Qed.

(** ** What is told about names *)
Lemma fis_land f k : fis_set f k = true <-> N.land f k <> 0.
Proof. unfold fis_set. destruct (N.eqb_spec (N.land f k) 0); cbn; intuition congruence. Qed.
Lemma trims_trimmed l : trims_to c_space l (trimmed l).
Proof. exact (ProofsParsers.trimmed_spec l). Qed.
Lemma trimmed_twice l : trimmed (trimmed l) = trimmed l.
Proof.
  destruct (trims_trimmed l) as (a & b & _ & _ & _ & Hf & Hl).
  pose proof (trimmed_middle [] (trimmed l) [] (Forall_nil _) (Forall_nil _) Hf Hl) as E. rewrite app_nil_r in E. destruct E as [E|E]; [exact E|now rewrite E].
Qed.
Lemma token_chars_left n : (match token_chars n with POk (_ :: _) _ => true | _ => false end) = true <-> ~ token_name n.
Proof.
  unfold token_chars, pbind, space0_s, take_while_s, pret.
  assert (B : forall l, Forall (fun c => nom_is_space c = true) l <-> Forall sp_or_tab l).
  { intro l. split; apply Forall_impl; unfold nom_is_space, sp_or_tab; lia. }
  assert (T : forall l, Forall (fun c => is_token c = true) l <-> Forall token_byte l).
  { intro l. split; apply Forall_impl; intro; apply is_token_spec. }
  destruct (span nom_is_space n) as [a r1] eqn:E1. apply span_spec in E1 as (-> & A1 & A2).
  destruct r1 as [|x r1].
  { split; [discriminate|]. intro H. elim H. exists a, [], []. split; [reflexivity|]. split; [now apply B|]. split; constructor. }
  destruct (span is_token (x :: r1)) as [t r2] eqn:E2. apply span_spec in E2 as (E2 & T1 & T2).
  destruct r2 as [|y r2].
  { split; [discriminate|]. intro H. elim H. exists a, t, []. split; [now rewrite E2|]. split; [now apply B|]. split; [now apply T|constructor]. }
  destruct (span nom_is_space (y :: r2)) as [b r3] eqn:E3. apply span_spec in E3 as (E3 & B1 & B2).
  destruct r3 as [|z r3].
  { split; [discriminate|]. intro H. elim H. exists a, t, b. split; [rewrite E2, E3; now rewrite app_nil_r|]. split; [now apply B|]. split; [now apply T|now apply B]. }
  split; [|reflexivity]. intros _ (a' & t' & b' & E & A' & T' & B').
  apply B in A', B'. apply T in T'.
  assert (Za : a' = a /\ t' ++ b' = x :: r1).
  { assert (S1 : span nom_is_space (a ++ x :: r1) = (a, x :: r1)) by (apply span_app; assumption).
    destruct (t' ++ b') as [|w w'] eqn:Ew.
    - rewrite E, app_nil_r in S1. assert (S2 : span nom_is_space (a' ++ []) = (a', [])) by (apply span_app; [assumption|discriminate]).
      rewrite app_nil_r in S2. rewrite S2 in S1. discriminate.
    - destruct t' as [|w0 t'].
      + cbn [app] in Ew. subst b'. cbn [app] in E. assert (S2 : span nom_is_space ((a' ++ w :: w') ++ []) = (a' ++ w :: w', [])).
        { apply span_app; [apply Forall_app; auto|discriminate]. } rewrite app_nil_r in S2. rewrite E, S2 in S1. discriminate.
      + injection Ew as -> Ew. inversion T' as [|? ? Tw _]; subst. rewrite E in S1.
        assert (S2 : span nom_is_space (a' ++ w :: (t' ++ b')) = (a', w :: t' ++ b')).
        { apply span_app; [assumption|]. intros ? ? [= <- _]. apply is_token_spec, token_not in Tw. unfold nom_is_space. lia. }
        cbn [app] in S1. rewrite S2 in S1. injection S1 as -> -> ->. auto. }
  destruct Za as [-> Ew].
  assert (Zt : t' = t /\ b' = y :: r2).
  { assert (S1 : span is_token (x :: r1) = (t, y :: r2)) by (rewrite E2; apply span_app; assumption).
    assert (S2 : span is_token (t' ++ b') = (t', b')).
    { apply span_app; [assumption|]. intros w m ->. inversion B' as [|? ? Bw _]; subst. destruct (is_token w) eqn:K; [|reflexivity].
      apply is_token_spec, token_not in K. unfold nom_is_space in Bw. lia. }
    rewrite Ew, S1 in S2. injection S2 as -> ->. auto. }
  destruct Zt as [-> Eb]. rewrite Eb, E3 in B'. apply Forall_app in B' as [_ B']. inversion B' as [|? ? Bz _]; subst.
  rewrite (B2 _ _ eq_refl) in Bz. discriminate.
Qed.
Lemma notes_name n : notes (name_flags n) (name_notes n).
Proof.
  destruct n as [|b n].
  { split.
    - intros k P [[= <- <-]|[[= <- <-]|[[= <- <-]|[[= <- <-]|[]]]]].
      + split; [reflexivity|discriminate].
      + split; [now vm_compute|]. intros (? & ? & ? & _). discriminate.
      + split; [now vm_compute|]. intros (? & n' & ? & _). now destruct n'.
      + split; [now vm_compute|]. intro H. elim H. now exists [], [], [].
    - intros i H. exists HF_NAME_EMPTY, ([] = @nil N). split; [now left|exact H]. }
  pose proof (name_flags_ws (b :: n) ltac:(easy)) as [L T]. rewrite fis_land in L, T.
  pose proof (token_chars_left (b :: n)) as K. set (tc := match token_chars (b :: n) with POk (_ :: _) _ => true | _ => false end) in K.
  assert (F : exists x y, name_flags (b :: n) = N.lor (if x : bool then HF_NAME_LEADING_WHITESPACE else 0)
     (N.lor (if y : bool then HF_NAME_TRAILING_WHITESPACE else 0) (if tc then HF_NAME_NON_TOKEN_CHARS else 0))).
  { unfold name_flags, tc. destruct (last_byte (b :: n)) as [z|].
    - exists (nom_is_space b), (nom_is_space z). destruct (nom_is_space b), (nom_is_space z), (token_chars (b :: n)) as [[|? ?] ?| |]; reflexivity.
    - exists (nom_is_space b), false. destruct (nom_is_space b), (token_chars (b :: n)) as [[|? ?] ?| |]; reflexivity. }
  destruct F as (x & y & F). split.
  - intros k P [[= <- <-]|[[= <- <-]|[[= <- <-]|[[= <- <-]|[]]]]].
    + rewrite F. split; [|discriminate]. destruct x, y, tc; now vm_compute.
    + exact L.
    + exact T.
    + rewrite <- K, F. destruct x, y, tc; vm_compute; intuition discriminate.
  - intros i H. rewrite F in H. rewrite !N.lor_spec in H. apply orb_true_iff in H as [H|H]; [|apply orb_true_iff in H as [H|H]].
    + exists HF_NAME_LEADING_WHITESPACE. eexists. split; [right; left; reflexivity|]. destruct x; [exact H|now rewrite N.bits_0 in H].
    + exists HF_NAME_TRAILING_WHITESPACE. eexists. split; [right; right; left; reflexivity|]. destruct y; [exact H|now rewrite N.bits_0 in H].
    + exists HF_NAME_NON_TOKEN_CHARS. eexists. split; [right; right; right; left; reflexivity|]. destruct tc; [exact H|now rewrite N.bits_0 in H].
Qed.

Lemma read_one sd f t t' : field_ok sd f -> (exists c r, t = c :: r /\ c <> 32) -> ends sd (last (map cl_cr (f_more f)) (f_cr f)) t t' ->
  exists h, h_header sd false (field_text f ++ t) = Some (POk t' h) /\ says f h /\ N.land (hf_flags (ph_value h)) HF_NULL_TERMINATED = 0.
Proof.
  intros Hok Ht He. pose proof Hok as (H1 & H2 & H4 & _). destruct f as [a cr more]. cbn [f_line f_cr f_more] in *. 
  assert (Hp : Forall (fun c => plain (cl_text c)) more) by (revert H4; apply Forall_impl; intros c (_ & P & _); exact P).
  unfold field_text. cbn [f_line f_cr f_more]. fold (lines_text more).
  destruct (named_dec a cr more) as [(n & v & more' & Hn)|Hn].
  - destruct (named_text _ _ _ _ _ _ Hn) as (cr' & Et & El). destruct (named_name_ok _ _ _ _ _ _ Hn H1 Hp) as (N1 & N2 & _).
    destruct (span nom_is_space v) as [blank v1] eqn:Ev. apply span_spec in Ev as (-> & B1 & B2).
    assert (Hm : Forall (more_ok sd) more').
    { apply (field_more _ _ _ Hok). left. eauto. }
    assert (Hb : Forall sp_or_tab blank) by (revert B1; apply Forall_impl; unfold nom_is_space, sp_or_tab; lia).
    assert (P1 : plain v1) by (apply Forall_app in N2; tauto).
    exists (mk_ph (hf_new n (name_flags n)) (hf_new (joined v1 more') (value_flags v1 more'))).
    split; [|split].
    + unfold h_header, header_with_colon. rewrite Et. rewrite <- !app_assoc. cbn [app]. unfold pbind at 1. rewrite h_name_odd by assumption. unfold pbind.
      rewrite <- !app_assoc. rewrite sep_line; [|assumption| |].
      * unfold pret. rewrite h_value_lines with (t' := t'); [reflexivity|assumption|assumption|now rewrite <- El].
      * intros x m E. destruct v1 as [|y v1]; [|cbn in E; injection E as <- _; now apply (B2 _ _ eq_refl)].
        destruct cr'; cbn in E; injection E as <- _; reflexivity.
      * destruct v1, cr'; easy.
    + eapply (sy_named value_flags _ _ n (blank ++ v1) more' blank v1); cbn [f_line f_cr f_more ph_name ph_value hf_new hf_bytes hf_flags].
      * exact Hn.
      * split; [reflexivity|]. split; [exact Hb|]. intros x rest E. apply B2 in E. unfold nom_is_space in E. unfold sp_or_tab. lia.
      * apply trims_trimmed.
      * apply notes_name.
      * apply trims_trimmed.
      * reflexivity.
    + cbn [ph_value hf_new hf_flags]. destruct more', v1; reflexivity.
  - assert (Hm : Forall (more_ok sd) more) by (apply (field_more _ _ _ Hok); right; auto).
    exists (mk_ph (hf_new [] (N.lor (value_flags a more) HF_MISSING_COLON)) (hf_new (trimmed (joined a more)) (N.lor (value_flags a more) HF_MISSING_COLON))).
    split; [|split].
    + unfold h_header. assert (E : header_with_colon sd false ((a ++ ending cr ++ lines_text more) ++ t) = Some PErr).
      { unfold header_with_colon, pbind, h_name. rewrite <- !app_assoc.
        destruct (unnamed_end more a cr t 0 H1 Hp Hn Ht) as (p & q & -> & ->). cbn [Nat.add].
        rewrite skipn_app, skipn_all, Nat.sub_diag. cbn [skipn app]. unfold separator_regular, pbind, tag_c. cbn [strip_prefix]. reflexivity. }
      rewrite E. unfold header_sans_colon. rewrite <- !app_assoc.
      assert (E2 : p_not (tag_c [13; 10]) (a ++ ending cr ++ lines_text more ++ t) = POk (a ++ ending cr ++ lines_text more ++ t) tt).
      { destruct a as [|x a]; [easy|]. inversion H1; subst. unfold p_not, tag_c. cbn [app strip_prefix]. destruct (N.eqb_spec 13 x); [lia|reflexivity]. }
      rewrite E2. rewrite h_value_lines with (t' := t') by assumption. reflexivity.
    + apply sy_bare; cbn [f_line f_cr f_more ph_name ph_value hf_new hf_bytes hf_flags].
      * exact Hn.
      * reflexivity.
      * rewrite trimmed_twice. apply trims_trimmed.
      * apply N.lor_comm.
      * apply N.lor_comm.
    + cbn [ph_value hf_new hf_flags]. destruct more, a; reflexivity.
Qed.

(** ** A continuation line taken for a header *)
Lemma is_header V cr t (X : bytes * bytes * bytes -> option (pres hfield)) (Y : option (pres hfield)) Z : plain V -> header_like V -> (forall tk, X tk = Z) ->
  match (plet u := token_chars in plet s := separator_regular in pret u) (V ++ ending cr ++ t) with
  | POk _ (_, tokens, _) => match tokens with [] => Y | _ => X ([], tokens, []) end
  | PInc => Some PInc
  | PErr => Y
  end = Z.
Proof.
  intros HV (a & tk & b & r & -> & A & Tn & T & B) HX.
  assert (B' : forall l, Forall sp_or_tab l -> Forall (fun c => nom_is_space c = true) l).
  { intro l. apply Forall_impl; unfold nom_is_space, sp_or_tab; lia. }
  assert (T' : Forall (fun c => is_token c = true) tk) by (revert T; apply Forall_impl; intro; apply is_token_spec).
  unfold pbind at 1, token_chars. unfold pbind at 1, space0_s at 1, take_while_s at 1. rewrite <- !app_assoc.
  destruct tk as [|x tk]; [easy|]. rewrite (span_app nom_is_space a); [|now apply B'|].
  2: { intros ? ? [= <- _]. inversion T; subst. apply token_not in H1. unfold nom_is_space. lia. }
  cbn [app]. unfold pbind at 1, take_while_s at 1. change (x :: tk ++ ?r) with ((x :: tk) ++ r). rewrite (span_app is_token (x :: tk)); [|exact T'|].
  2: { intros y m E. destruct b as [|z b]; cbn in E; injection E as <- _; [reflexivity|]. inversion B; subst.
       destruct (is_token z) eqn:K; [|reflexivity]. apply is_token_spec, token_not in K. unfold sp_or_tab in *. lia. }
  assert (Q : exists y m, b ++ 58 :: r ++ ending cr ++ t = y :: m) by (destruct b; cbn; eauto). destruct Q as (y & m & Q). rewrite Q. cbv beta iota. rewrite <- Q.
  unfold pbind at 1, space0_s at 1, take_while_s at 1. rewrite (span_app nom_is_space b); [|now apply B'|intros ? ? [= <- _]; reflexivity].
  cbn [app]. unfold pret at 1, pbind at 1, separator_regular, pbind at 1, tag_c. cbn [strip_prefix]. change (58 =? 58) with true. cbv beta iota.
  unfold pbind, space0_s, take_while_s.
  assert (Hr : plain r). { apply Forall_app in HV as [_ HV]. apply Forall_app in HV as [_ HV]. apply Forall_app in HV as [_ HV]. now inversion HV. }
  destruct (span nom_is_space r) as [c d] eqn:E. apply span_spec in E as (-> & C1 & C2). rewrite <- app_assoc.
  rewrite (span_app nom_is_space c); [|exact C1|].
  - assert (Q2 : exists y2 m2, d ++ ending cr ++ t = y2 :: m2) by (destruct d, cr; cbn; eauto). destruct Q2 as (y2 & m2 & ->). unfold pret. apply HX.
  - intros x2 m2 E. destruct d as [|z d]; [|cbn in E; injection E as <- _; now apply (C2 _ _ eq_refl)]. destruct cr; cbn in E; injection E as <- _; reflexivity.
Qed.
Lemma value_loop_cut b0 l cr0 t more : fold_byte b0 -> plain l -> header_like l -> Forall (more_ok SResp) more ->
  forall b V cr rest value fuel, plain V -> (V = [] -> cr = true) -> ~ header_like V -> (S (length more) < fuel)%nat ->
  value_loop fuel SResp false rest (V ++ ending cr ++ lines_text more ++ b0 :: l ++ ending cr0 ++ t) [b] value HF_FOLDING =
  Some (POk (l ++ ending cr0 ++ t) (hf_new (joined value (mk_cl b V cr :: more)) (cut_flags value (mk_cl b V cr :: more)))).
Proof.
  intros Hb Hl Hh. assert (End : forall rest value fuel b, (0 < fuel)%nat ->
    value_loop fuel SResp false rest (l ++ ending cr0 ++ t) [b] value HF_FOLDING = Some (POk (l ++ ending cr0 ++ t) (hf_new value (match value with [] => HF_VALUE_EMPTY | _ => 0 end)))).
  { intros rest value fuel b Hf. destruct fuel as [|fuel]; [lia|]. cbn [value_loop is_resp].
    apply is_header with (X := fun _ => _); [assumption|assumption|]. intros _. destruct value; reflexivity. }
  induction 1 as [|c more Hc Hm IH]; intros b V cr rest value fuel HV Hk Hn Hf; (destruct fuel as [|fuel]; [cbn in Hf; lia|]); cbn [value_loop is_resp].
  - match goal with |- match ?p with POk _ _ => _ | PErr => ?y | PInc => _ end = _ => transitivity y; [apply not_header with (X := fun _ => _); assumption|] end.
    cbn [lines_text map concat app]. rewrite value_bytes_at by assumption. rewrite eol_folds by assumption.
    assert (K : negb (match V with [] => true | _ => false end) || (1 <? length (ending cr))%nat = true).
    { destruct V; [|reflexivity]. now rewrite (Hk eq_refl). }
    rewrite K. change (fset HF_FOLDING HF_FOLDING) with HF_FOLDING. rewrite End by (cbn in Hf; lia).
    unfold cut_flags. cbn [joined cl_text cl_byte]. destruct value; [reflexivity|]. rewrite <- app_assoc. reflexivity.
  - match goal with |- match ?p with POk _ _ => _ | PErr => ?y | PInc => _ end = _ => transitivity y; [apply not_header with (X := fun _ => _); assumption|] end.
    destruct Hc as (C1 & C2 & C3 & C4). rewrite lines_text_cons. rewrite value_bytes_at by assumption. cbn [app]. rewrite eol_folds by assumption.
    assert (K : negb (match V with [] => true | _ => false end) || (1 <? length (ending cr))%nat = true).
    { destruct V; [|reflexivity]. now rewrite (Hk eq_refl). }
    rewrite K. change (fset HF_FOLDING HF_FOLDING) with HF_FOLDING. rewrite <- !app_assoc.
    rewrite IH; [|assumption|assumption|now apply C4|cbn in Hf; lia].
    unfold cut_flags. cbn [joined cl_text cl_byte]. destruct value; [reflexivity|]. rewrite <- !app_assoc. reflexivity.
Qed.
Lemma h_value_cut b0 l cr0 t V cr more : fold_byte b0 -> plain l -> header_like l -> plain V -> Forall (more_ok SResp) more ->
  h_value SResp false (V ++ ending cr ++ lines_text more ++ b0 :: l ++ ending cr0 ++ t) =
  Some (POk (l ++ ending cr0 ++ t) (hf_new (joined V more) (cut_flags V more))).
Proof.
  intros Hb Hl Hh HV Hm. unfold h_value. rewrite value_bytes_at by assumption. destruct more as [|c more].
  - cbn [lines_text map concat app]. rewrite eol_folds by assumption. cbn [value_loop is_resp].
    apply is_header with (X := fun _ => _); [assumption|assumption|]. intros _. destruct V; reflexivity.
  - inversion Hm as [|? ? (C1 & C2 & C3 & C4) Hm']; subst. rewrite lines_text_cons. cbn [app]. rewrite eol_folds by assumption. rewrite <- !app_assoc.
    rewrite value_loop_cut; [destruct c; reflexivity|assumption|assumption|assumption|assumption|assumption|assumption|now apply C4|].
    rewrite !app_length. pose proof (lines_text_length more). cbn [length]. lia.
Qed.
Lemma read_cut f b l cr t : field_ok SResp f -> fold_byte b -> plain l -> header_like l ->
  (b = 32 -> exists n v more, named (f_line f) (f_cr f) (f_more f) n v more) ->
  exists h, h_header SResp false (field_text f ++ b :: l ++ ending cr ++ t) = Some (POk (l ++ ending cr ++ t) h) /\ says_cut f h.
Proof.
  intros Hok Hb Hl Hh Hsp. pose proof Hok as (H1 & H2 & H4 & _). destruct f as [a cr1 more]. cbn [f_line f_cr f_more] in *.
  assert (Hp : Forall (fun c => plain (cl_text c)) more) by (revert H4; apply Forall_impl; intros c (_ & P & _); exact P).
  unfold field_text. cbn [f_line f_cr f_more]. fold (lines_text more).
  destruct (named_dec a cr1 more) as [(n & v & more' & Hn)|Hn].
  - destruct (named_text _ _ _ _ _ _ Hn) as (cr' & Et & El). destruct (named_name_ok _ _ _ _ _ _ Hn H1 Hp) as (N1 & N2 & _).
    destruct (span nom_is_space v) as [blank v1] eqn:Ev. apply span_spec in Ev as (-> & B1 & B2).
    assert (Hm : Forall (more_ok SResp) more').
    { apply (field_more _ _ _ Hok). left. eauto. }
    assert (Hb1 : Forall sp_or_tab blank) by (revert B1; apply Forall_impl; unfold nom_is_space, sp_or_tab; lia).
    assert (P1 : plain v1) by (apply Forall_app in N2; tauto).
    exists (mk_ph (hf_new n (name_flags n)) (hf_new (joined v1 more') (cut_flags v1 more'))).
    split.
    + unfold h_header, header_with_colon. rewrite Et. rewrite <- !app_assoc. cbn [app]. unfold pbind at 1. rewrite h_name_odd by assumption. unfold pbind.
      rewrite <- !app_assoc. rewrite sep_line; [|assumption| |].
      * unfold pret. rewrite h_value_cut by assumption. reflexivity.
      * intros x m E. destruct v1 as [|y v1]; [|cbn in E; injection E as <- _; now apply (B2 _ _ eq_refl)].
        destruct cr'; cbn in E; injection E as <- _; reflexivity.
      * destruct v1, cr'; easy.
    + eapply (sy_named cut_flags _ _ n (blank ++ v1) more' blank v1); cbn [f_line f_cr f_more ph_name ph_value hf_new hf_bytes hf_flags].
      * exact Hn.
      * split; [reflexivity|]. split; [exact Hb1|]. intros x rest E. apply B2 in E. unfold nom_is_space in E. unfold sp_or_tab. lia.
      * apply trims_trimmed.
      * apply notes_name.
      * apply trims_trimmed.
      * reflexivity.
  - assert (Hm : Forall (more_ok SResp) more) by (apply (field_more _ _ _ Hok); right; auto).
    exists (mk_ph (hf_new [] (N.lor (cut_flags a more) HF_MISSING_COLON)) (hf_new (trimmed (joined a more)) (N.lor (cut_flags a more) HF_MISSING_COLON))).
    split.
    + unfold h_header. assert (E : header_with_colon SResp false ((a ++ ending cr1 ++ lines_text more) ++ b :: l ++ ending cr ++ t) = Some PErr).
      { unfold header_with_colon, pbind, h_name. rewrite <- !app_assoc.
        destruct (unnamed_end more a cr1 (b :: l ++ ending cr ++ t) 0 H1 Hp Hn) as (p & q & -> & ->).
        { eexists _, _. split; [reflexivity|]. intros ->. destruct (Hsp eq_refl) as (? & ? & ? & K). elim (Hn _ _ _ K). }
        cbn [Nat.add].
        rewrite skipn_app, skipn_all, Nat.sub_diag. cbn [skipn app]. unfold separator_regular, pbind, tag_c. cbn [strip_prefix]. reflexivity. }
      rewrite E. unfold header_sans_colon. rewrite <- !app_assoc.
      assert (E2 : forall u, p_not (tag_c [13; 10]) (a ++ u) = POk (a ++ u) tt).
      { intro u. destruct a as [|x a]; [easy|]. inversion H1; subst. unfold p_not, tag_c. cbn [app strip_prefix]. destruct (N.eqb_spec 13 x); [lia|reflexivity]. }
      rewrite E2. rewrite h_value_cut by assumption. reflexivity.
    + apply sy_bare; cbn [f_line f_cr f_more ph_name ph_value hf_new hf_bytes hf_flags].
      * exact Hn.
      * reflexivity.
      * rewrite trimmed_twice. apply trims_trimmed.
      * apply N.lor_comm.
      * apply N.lor_comm.
Qed.

(** ** The block *)
Lemma field_starts sd f t : field_ok sd f -> apart f -> exists c r, field_text f ++ t = c :: r /\ ~ fold_byte c /\ c <> 13 /\ c <> 10.
Proof.
  intros (H1 & H2 & _) Ha. unfold field_text. destruct (f_line f) as [|c l] eqn:E; [easy|]. inversion H1; subst. cbn [app].
  eexists c, _. split; [reflexivity|]. split; [now apply (Ha _ _ E)|]. tauto.
Qed.
Lemma no_eol sd c r : c <> 13 -> c <> 10 -> complete_eol sd (c :: r) = PErr.
Proof.
  intros H1 H2. unfold complete_eol, complete_eol_deformed, folding_empty, complete_eol_regular, p_alt, pbind, tag_c. destruct sd; cbn [strip_prefix]; eqs; reflexivity.
Qed.
Lemma flag_null h : N.land (hf_flags (ph_value h)) HF_NULL_TERMINATED = 0 -> fis_set (hf_flags (ph_value h)) HF_NULL_TERMINATED = false.
Proof. intro H. unfold fis_set. now rewrite H. Qed.
Lemma loop_fields sd cr tail : tail_ok sd cr tail -> forall fs f fuel out, field_ok sd f -> Forall (field_ok sd) fs -> Forall apart fs ->
  (length fs < fuel)%nat -> exists hs,
  headers_loop fuel sd false (fields_text (f :: fs) ++ ending cr ++ tail) out = Some (POk tail (out ++ hs, true)) /\ Forall2 says (f :: fs) hs.
Proof.
  intro Ht. induction fs as [|g fs IH]; intros f fuel out Hf Hfs Ha Hl; (destruct fuel as [|fuel]; [cbn in Hl; lia|]); cbn [headers_loop].
  - unfold fields_text. cbn [map concat]. rewrite app_nil_r.
    destruct (ends_empty sd (last (map cl_cr (f_more f)) (f_cr f)) cr tail) as (t' & He & Hc).
    destruct (read_one sd f (ending cr ++ tail) t' Hf) as (h & E & Hs & Hn); [destruct cr; cbn; eexists _, _; (split; [reflexivity|lia])|exact He|].
    rewrite E, (flag_null _ Hn). destruct (Hc Ht) as (e & ->). exists [h]. split; [reflexivity|]. now constructor.
  - inversion Hfs as [|? ? Hg Hfs']; subst. inversion Ha as [|? ? Ag Ha']; subst.
    destruct (field_starts sd g (fields_text fs ++ ending cr ++ tail) Hg Ag) as (c & r & Ec & C1 & C2 & C3).
    assert (Et : fields_text (f :: g :: fs) ++ ending cr ++ tail = field_text f ++ c :: r).
    { unfold fields_text in *. cbn [map concat]. rewrite <- Ec. now rewrite <- !app_assoc. }
    assert (Eg : fields_text (g :: fs) ++ ending cr ++ tail = c :: r).
    { unfold fields_text in *. cbn [map concat]. rewrite <- Ec. now rewrite <- !app_assoc. }
    rewrite Et. destruct (read_one sd f (c :: r) (c :: r) Hf) as (h & E & Hs & Hn).
    + eexists _, _. split; [reflexivity|]. unfold fold_byte in C1. lia.
    + now apply ends_line.
    + rewrite E, (flag_null _ Hn), no_eol by assumption.
      destruct (IH g fuel (out ++ [h]) Hg Hfs' Ha' ltac:(cbn in Hl; lia)) as (hs & L & F2). rewrite Eg in L. rewrite L.
      exists (h :: hs). split; [now rewrite <- app_assoc|]. now constructor.
Qed.
Lemma fields_length sd fs : Forall (field_ok sd) fs -> (length fs <= length (fields_text fs))%nat.
Proof.
  induction 1 as [|f fs (H1 & H2 & _) _ IH]; [cbn; lia|]. unfold fields_text in *. cbn [map concat length]. rewrite app_length.
  assert (1 <= length (field_text f))%nat by (unfold field_text; rewrite app_length; destruct (f_line f); [easy|cbn [length]; lia]). lia.
Qed.
Lemma read_fields sd fs cr tail : fields_ok sd fs -> tail_ok sd cr tail -> exists hs,
  h_headers sd false (fields_text fs ++ ending cr ++ tail) = Some (POk tail (hs, true)) /\ Forall2 says fs hs.
Proof.
  intros [H Ha] Ht. destruct fs as [|f fs]; [easy|]. inversion H as [|? ? Hf Hfs]; subst. unfold h_headers. destruct fs as [|g fs].
  - unfold fields_text. cbn [map concat]. rewrite app_nil_r.
    destruct (ends_empty sd (last (map cl_cr (f_more f)) (f_cr f)) cr tail) as (t' & He & Hc).
    destruct (read_one sd f (ending cr ++ tail) t' Hf) as (h & E & Hs & Hn); [destruct cr; cbn; eexists _, _; (split; [reflexivity|lia])|exact He|].
    rewrite E, (flag_null _ Hn). destruct (Hc Ht) as (e & ->). exists [h]. split; [reflexivity|]. now constructor.
  - inversion Hfs as [|? ? Hg Hfs']; subst. inversion Ha as [|? ? Ag Ha']; subst.
    destruct (field_starts sd g (fields_text fs ++ ending cr ++ tail) Hg Ag) as (c & r & Ec & C1 & C2 & C3).
    assert (Et : fields_text (f :: g :: fs) ++ ending cr ++ tail = field_text f ++ c :: r).
    { unfold fields_text in *. cbn [map concat]. rewrite <- Ec. now rewrite <- !app_assoc. }
    assert (Eg : fields_text (g :: fs) ++ ending cr ++ tail = c :: r).
    { unfold fields_text in *. cbn [map concat]. rewrite <- Ec. now rewrite <- !app_assoc. }
    rewrite Et. destruct (read_one sd f (c :: r) (c :: r) Hf) as (h & E & Hs & Hn).
    + eexists _, _. split; [reflexivity|]. unfold fold_byte in C1. lia.
    + now apply ends_line.
    + rewrite E, (flag_null _ Hn), no_eol by assumption. rewrite <- Eg.
      destruct (loop_fields sd cr tail Ht fs g (S (length (fields_text (g :: fs) ++ ending cr ++ tail))) [h] Hg Hfs' Ha') as (hs & L & F2).
      { rewrite app_length. pose proof (fields_length sd _ Hfs) as G. cbn [length] in G. lia. }
      rewrite L. exists (h :: hs). split; [reflexivity|]. now constructor.
Qed.
Lemma says_det f h h' : says f h -> says f h' -> hf_bytes (ph_name h) = hf_bytes (ph_name h') /\ ph_value h = ph_value h' /\
  (forall k, In k [HF_NAME_EMPTY; HF_NAME_LEADING_WHITESPACE; HF_NAME_TRAILING_WHITESPACE; HF_NAME_NON_TOKEN_CHARS] ->
     (N.land (hf_flags (ph_name h)) k <> 0 <-> N.land (hf_flags (ph_name h')) k <> 0)).
Proof.
  assert (V : forall a b, hf_bytes a = hf_bytes b -> hf_flags a = hf_flags b -> a = b) by (intros [] []; cbn; congruence).
  intros [n v more bl v1 N1 M1 T1 F1 V1 W1|N1 B1 V1 F1 W1] [n2 v2 more2 bl2 v12 N2 M2 T2 F2 V2 W2|N2 B2 V2 F2 W2].
  - destruct (named_det _ _ _ _ _ _ N1 _ _ _ N2) as (-> & -> & ->).
    assert (v12 = v1) as ->.
    { destruct M1 as (-> & A1 & A2), M2 as (E & B1 & B2). clear -E A1 A2 B1 B2. revert bl2 E B1. induction A1 as [|x bl Hx A1 IH]; intros [|y bl2] E B1; cbn in E.
      - congruence.
      - subst v1. inversion B1; subst. now elim (A2 _ _ eq_refl).
      - subst v12. now elim (B2 _ _ eq_refl).
      - injection E as _ E. inversion B1; subst. eauto. }
    split; [eapply ProofsBstr.trims_to_unique; eassumption|]. split; [apply V; [eapply ProofsBstr.trims_to_unique; eassumption|congruence]|].
    intros k Hk. destruct F1 as [F1 _], F2 as [F2 _]. assert (exists P, In (k, P) (name_notes n)) as (P & I).
    { destruct Hk as [<-|[<-|[<-|[<-|[]]]]]; eexists; cbn [name_notes In]; eauto. }
    rewrite (F1 _ _ I), (F2 _ _ I). reflexivity.
  - elim (N2 _ _ _ N1).
  - elim (N1 _ _ _ N2).
  - split; [congruence|]. split; [apply V; [eapply ProofsBstr.trims_to_unique; eassumption|congruence]|]. intros k _. now rewrite F1, F2.
Qed.
Lemma blank_line_ends : exists fs, field_ok SReq (mk_field (s2b "A: b") true [mk_cl 32 [] true]) /\ fs = [mk_field (s2b "C: d") false []] /\
  (exists h, h_headers SReq false (s2b "A: b" ++ [10; 32; 10] ++ fields_text fs ++ [10]) = Some (POk (fields_text fs ++ [10]) ([h], true))) /\
  (exists h h', h_headers SReq false (s2b "A: b" ++ [13; 10; 32; 13; 10] ++ fields_text fs ++ [10]) = Some (POk [] ([h; h'], true))).
Proof.
  eexists. split; [|split; [reflexivity|split; [eexists; vm_compute; reflexivity|eexists _, _; vm_compute; reflexivity]]].
  split; [|split].
  - cbn. repeat (constructor; [lia|]). constructor.
  - discriminate.
  - split; [|discriminate]. constructor; [|constructor]. split; [now left|]. split; [constructor|]. reflexivity.
Qed.
