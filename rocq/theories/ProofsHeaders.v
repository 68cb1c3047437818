(** Proofs about the header block parser. *)
From Verif Require Import Base Spec ModelUtil ModelHeaders ProofsBase.

(** * Suffix and progress (C23) *)
Definition sfx (r i : bytes) : Prop := exists p, i = p ++ r.
Definition ssfx (r i : bytes) : Prop := exists p, p <> [] /\ i = p ++ r.
Lemma sfx_refl i : sfx i i. Proof. now exists []. Qed.
Lemma sfx_trans a b c : sfx a b -> sfx b c -> sfx a c.
Proof. intros (p & ->) (q & ->). exists (q ++ p). now rewrite app_assoc. Qed.
Lemma ssfx_sfx a b : ssfx a b -> sfx a b. Proof. intros (p & _ & H). now exists p. Qed.
Lemma ssfx_sfx_trans a b c : ssfx a b -> sfx b c -> ssfx a c.
Proof. intros (p & Hp & ->) (q & ->). exists (q ++ p). split; [|now rewrite app_assoc]. now destruct q. Qed.
Lemma sfx_ssfx_trans a b c : sfx a b -> ssfx b c -> ssfx a c.
Proof. intros (p & ->) (q & Hq & ->). exists (q ++ p). split; [|now rewrite app_assoc]. now destruct q. Qed.
Lemma ssfx_length a b : ssfx a b -> (length a < length b)%nat.
Proof. intros (p & Hp & ->). rewrite app_length. destruct p; [easy|cbn; lia]. Qed.
Lemma skipn_sfx n i : sfx (skipn n i) i.
Proof. exists (firstn n i). now rewrite firstn_skipn. Qed.

(** A parser is [good] when its rest is a suffix, [prog] when it is a strict one. *)
Definition good {A} (p : parser A) : Prop := forall i r v, p i = POk r v -> sfx r i.
Definition prog {A} (p : parser A) : Prop := forall i r v, p i = POk r v -> ssfx r i.
Lemma prog_good {A} (p : parser A) : prog p -> good p.
Proof. intros H i r v E. apply ssfx_sfx. eapply H; eauto. Qed.
Lemma good_ret {A} (v : A) : good (pret v).
Proof. intros i r w [= <- <-]. apply sfx_refl. Qed.
Lemma good_bind {A B} (p : parser A) (f : A -> parser B) : good p -> (forall a, good (f a)) -> good (pbind p f).
Proof.
  intros Hp Hf i r v H. unfold pbind in H. destruct (p i) as [r1 a| |] eqn:E; try discriminate.
  eapply sfx_trans; [eapply Hf; eauto | eapply Hp; eauto].
Qed.
Lemma prog_bind_l {A B} (p : parser A) (f : A -> parser B) : prog p -> (forall a, good (f a)) -> prog (pbind p f).
Proof.
  intros Hp Hf i r v H. unfold pbind in H. destruct (p i) as [r1 a| |] eqn:E; try discriminate.
  eapply sfx_ssfx_trans; [eapply Hf; eauto | eapply Hp; eauto].
Qed.
Lemma good_alt {A} (p q : parser A) : good p -> good q -> good (p_alt p q).
Proof. intros Hp Hq i r v H. unfold p_alt in H. destruct (p i) eqn:E; [injection H as -> ->; eauto | eauto | discriminate]. Qed.
Lemma prog_alt {A} (p q : parser A) : prog p -> prog q -> prog (p_alt p q).
Proof. intros Hp Hq i r v H. unfold p_alt in H. destruct (p i) eqn:E; [injection H as -> ->; eauto | eauto | discriminate]. Qed.
Lemma good_opt {A} (p : parser A) : good p -> good (p_opt p).
Proof. intros Hp i r v H. unfold p_opt in H. destruct (p i) eqn:E; try discriminate; injection H as <- <-; eauto using sfx_refl. Qed.
Lemma good_peek {A} (p : parser A) : good (p_peek p).
Proof. intros i r v H. unfold p_peek in H. destruct (p i) eqn:E; try discriminate; injection H as <- <-; apply sfx_refl. Qed.
Lemma good_not {A} (p : parser A) : good (p_not p).
Proof. intros i r v H. unfold p_not in H. destruct (p i) eqn:E; try discriminate; injection H as <- <-; apply sfx_refl. Qed.
Lemma prog_complete {A} (p : parser A) : prog p -> prog (p_complete p).
Proof. intros Hp i r v H. unfold p_complete in H. destruct (p i) eqn:E; try discriminate; injection H as <- <-; eauto. Qed.
Lemma prog_tag_c t : t <> [] -> prog (tag_c t).
Proof.
  intros Ht i r v H. unfold tag_c in H. destruct (strip_prefix t i) eqn:E; [|discriminate].
  injection H as -> ->. apply strip_prefix_Some in E. now exists v.
Qed.
Lemma tag_s_aux_Some t i r : tag_s_aux t i = Some (Some r) <-> i = t ++ r.
Proof.
  revert i; induction t as [|x t IH]; intros i; cbn [tag_s_aux app]; [split; congruence|].
  destruct i as [|y i]; [easy|]. destruct (x =? y) eqn:E; [apply N.eqb_eq in E | apply N.eqb_neq in E].
  - rewrite IH. subst. split; [now intros -> | now intros [= ->]].
  - split; [easy|]. intro H. injection H as H1 H2. now subst.
Qed.
Lemma prog_tag_s t : t <> [] -> prog (tag_s t).
Proof.
  intros Ht i r v H. unfold tag_s in H. destruct (tag_s_aux t i) as [[q|]|] eqn:E; try discriminate.
  injection H as -> ->. apply tag_s_aux_Some in E. now exists v.
Qed.
Lemma good_take_while_s p : good (take_while_s p).
Proof.
  intros i r v H. unfold take_while_s in H. destruct (span p i) as [a [|y b]] eqn:E; [discriminate|].
  injection H as <- <-. apply span_spec in E as (-> & _). now exists a.
Qed.
Lemma prog_take_while1_s p : prog (take_while1_s p).
Proof.
  intros i r v H. unfold take_while1_s in H. destruct i as [|x i]; [discriminate|].
  destruct (span p (x :: i)) as [[|a l] [|y b]] eqn:E; try discriminate.
  injection H as <- <-. apply span_spec in E as (-> & _). exists (a :: l). split; easy.
Qed.
Lemma prog_one_of s : prog (one_of_c s).
Proof.
  intros i r v H. unfold one_of_c in H. destruct i as [|x i]; [discriminate|]. destruct (memb x s); [|discriminate].
  injection H as <- <-. exists [x]. split; easy.
Qed.

Create HintDb hp.
#[local] Hint Resolve good_ret good_bind prog_bind_l good_alt prog_alt good_opt good_peek good_not prog_complete
  good_take_while_s prog_take_while1_s prog_one_of prog_good : hp.
Ltac hp := intros; repeat first
  [ assumption
  | apply prog_bind_l; [|intros]
  | apply good_bind; [|intros]
  | apply prog_alt | apply good_alt | apply good_ret | apply good_opt | apply good_peek | apply good_not
  | apply prog_complete | apply good_take_while_s | apply prog_take_while1_s | apply prog_one_of
  | apply prog_tag_c; easy | apply prog_tag_s; easy
  | apply prog_good ].

Lemma prog_h_null : prog h_null. Proof. unfold h_null. hp. Qed.
Lemma prog_folding_lws : prog folding_lws. Proof. unfold folding_lws. hp. Qed.
Lemma prog_separator : prog separator_regular. Proof. unfold separator_regular, space0_s. hp. Qed.
Lemma good_token_chars : good token_chars. Proof. unfold token_chars, space0_s. hp. Qed.
Lemma prog_eol_regular sd : prog (complete_eol_regular sd).
Proof. unfold complete_eol_regular. destruct sd; hp. Qed.
Lemma prog_folding_empty sd : prog (folding_empty sd).
Proof. intros i r v H. unfold folding_empty in H. revert H. generalize i at 1. intros i0. revert i r v. fold (prog (A:=bytes*N)). 
  apply prog_bind_l; [apply prog_eol_regular|]. hp. apply prog_eol_regular. Qed.
Lemma prog_lf_or_crlf : prog lf_or_crlf. Proof. unfold lf_or_crlf. hp. Qed.
Lemma prog_eol_deformed sd : prog (complete_eol_deformed sd).
Proof.
  unfold complete_eol_deformed. destruct sd; [hp|].
  intros i r v H. revert H. generalize i at 1. intros i0. revert i r v.
  match goal with |- forall i r v, ?p i = _ -> _ => enough (prog p) by assumption end.
  apply prog_alt; [hp|]. apply prog_alt; [apply prog_folding_empty|]. hp.
Qed.
Lemma prog_complete_eol sd : prog (complete_eol sd).
Proof. unfold complete_eol. apply prog_alt; [apply prog_eol_deformed|]. apply prog_bind_l; [apply prog_eol_regular|]. hp. Qed.
Lemma prog_h_eol sd : prog (h_eol sd).
Proof. unfold h_eol. apply prog_bind_l; [apply prog_complete_eol|]. hp. Qed.
Lemma prog_null_or_eol sd : prog (null_or_eol sd).
Proof. apply prog_alt; [apply prog_h_null|apply prog_h_eol]. Qed.
Lemma prog_complete_null_or_eol sd : prog (complete_null_or_eol sd).
Proof. apply prog_alt; [apply prog_h_null|apply prog_complete_eol]. Qed.
Lemma prog_folding sd : prog (folding sd).
Proof.
  unfold folding. destruct sd; apply prog_bind_l; try apply prog_complete_eol; try apply prog_eol_regular;
  intros; apply good_bind; try (apply prog_good, prog_folding_lws); hp.
Qed.
Lemma prog_folding_or_terminator sd cm : prog (folding_or_terminator sd cm).
Proof.
  unfold folding_or_terminator, pmap. destruct cm; apply prog_alt.
  - apply prog_complete, prog_bind_l; [apply prog_folding|hp].
  - apply prog_bind_l; [apply prog_complete_null_or_eol|hp].
  - apply prog_bind_l; [apply prog_folding|hp].
  - apply prog_bind_l; [apply prog_null_or_eol|hp].
Qed.
Lemma prog_value_bytes sd cm : prog (value_bytes sd cm).
Proof.
  intros i r v H. unfold value_bytes in H. destruct (take_till_s (h_is_eol sd) i) as [rem val| |] eqn:E; try discriminate.
  apply good_take_while_s in E.
  destruct (last_byte val) as [b|].
  - destruct (b =? 13).
    + match type of H with match ?x with _ => _ end = _ => destruct x as [r1 v1| |] eqn:F; try discriminate end.
      injection H as <- <-. apply prog_folding_or_terminator in F. eapply ssfx_sfx_trans; [eassumption|]. apply skipn_sfx.
    + match type of H with match ?x with _ => _ end = _ => destruct x as [r1 v1| |] eqn:F; try discriminate end.
      injection H as <- <-. apply prog_folding_or_terminator in F. eapply ssfx_sfx_trans; eassumption.
  - match type of H with match ?x with _ => _ end = _ => destruct x as [r1 v1| |] eqn:F; try discriminate end.
    injection H as <- <-. apply prog_folding_or_terminator in F. eapply ssfx_sfx_trans; eassumption.
Qed.

Lemma value_loop_good fuel sd cm rest i ofold value flags :
  (length i < fuel)%nat -> sfx i rest ->
  exists q, value_loop fuel sd cm rest i ofold value flags = Some q /\ (forall r v, q = POk r v -> sfx r rest).
Proof.
  revert rest i ofold value flags; induction fuel as [|fuel IH]; intros rest i ofold value flags Hf Hi; [lia|].
  cbn [value_loop].
  match goal with |- context [if is_resp sd then _ else ?X] => set (step := X) end.
  assert (Hstep : exists q, step = Some q /\ (forall r v, q = POk r v -> sfx r rest)).
  { unfold step. destruct (value_bytes sd cm i) as [rest2 [vb [[eol ofl] fold]]| |] eqn:E.
    2-3: eexists; split; [reflexivity|discriminate].
    apply prog_value_bytes in E. cbv zeta.
    match goal with |- context [value_loop fuel sd cm ?R rest2] => set (rest' := R) end.
    assert (Hr : sfx rest' rest /\ sfx rest2 rest').
    { assert (sfx rest2 rest) by (eapply sfx_trans; [apply ssfx_sfx; eassumption|assumption]).
      unfold rest'. repeat match goal with |- context [if ?c then _ else _] => destruct c end; split; auto using sfx_refl. }
    destruct fold as [f|].
    - edestruct (IH rest' rest2) as (q & Eq & Hq); [apply ssfx_length in E; lia | apply Hr |].
      exists q. split; [exact Eq|]. intros r v H. eapply sfx_trans; [eapply Hq; eassumption|apply Hr].
    - eexists; split; [reflexivity|]. intros r v [= <- <-]. apply Hr. }
  destruct (is_resp sd); [|exact Hstep].
  match goal with |- context [match ?x with POk _ _ => _ | PErr => _ | PInc => _ end] => destruct x as [r1 [[? toks] ?]| |] end.
  - destruct toks as [|t toks]; [exact Hstep|]. eexists; split; [reflexivity|]. intros r v [= <- <-]. exact Hi.
  - exact Hstep.
  - eexists; split; [reflexivity|discriminate].
Qed.
Lemma h_value_good sd cm i : exists q, h_value sd cm i = Some q /\ (forall r v, q = POk r v -> ssfx r i).
Proof.
  unfold h_value. destruct (value_bytes sd cm i) as [rest [vb [[e fl] fold]]| |] eqn:E.
  2-3: eexists; split; [reflexivity|discriminate].
  apply prog_value_bytes in E. destruct fold as [f|].
  - edestruct (value_loop_good (S (length rest)) sd cm rest rest f vb fl) as (q & Eq & Hq); [lia|apply sfx_refl|].
    exists q. split; [exact Eq|]. intros r v H. eapply sfx_ssfx_trans; [eapply Hq; eassumption|assumption].
  - eexists; split; [reflexivity|]. intros r v [= <- <-]. exact E.
Qed.
Lemma good_h_name : good h_name.
Proof. intros i r v [= <- <-]. apply skipn_sfx. Qed.
Lemma header_sans_colon_good sd cm i : exists q, header_sans_colon sd cm i = Some q /\ (forall r v, q = POk r v -> ssfx r i).
Proof.
  unfold header_sans_colon. destruct (p_not (tag_c [13; 10]) i) as [r1 u| |] eqn:E.
  2-3: eexists; split; [reflexivity|discriminate].
  apply good_not in E. destruct (h_value_good sd cm r1) as (q & -> & Hq).
  destruct q as [r v| |]; (eexists; split; [reflexivity|]); try discriminate.
  intros r' v' [= <- <-]. eapply ssfx_sfx_trans; [eapply Hq; reflexivity|assumption].
Qed.
Lemma header_with_colon_good sd cm i : exists q, header_with_colon sd cm i = Some q /\ (forall r v, q = POk r v -> ssfx r i).
Proof.
  unfold header_with_colon.
  match goal with |- context [match ?x with POk _ _ => _ | PErr => _ | PInc => _ end] => destruct x as [r1 n| |] eqn:E end.
  2-3: eexists; split; [reflexivity|discriminate].
  assert (sfx r1 i).
  { revert E. match goal with |- ?p i = _ -> _ => enough (H : good p) by apply H end.
    apply good_bind; [apply good_h_name|]. intros. apply good_bind; [apply prog_good, prog_separator|]. hp. }
  destruct (h_value_good sd cm r1) as (q & -> & Hq).
  destruct q as [r v| |]; (eexists; split; [reflexivity|]); try discriminate.
  intros r' v' [= <- <-]. eapply ssfx_sfx_trans; [eapply Hq; reflexivity|assumption].
Qed.
Lemma h_header_good sd cm i : exists q, h_header sd cm i = Some q /\ (forall r v, q = POk r v -> ssfx r i).
Proof.
  unfold h_header. destruct (header_with_colon_good sd cm i) as (q & -> & Hq).
  destruct q as [r v| |]; try apply header_sans_colon_good. eexists; split; [reflexivity|]. exact Hq.
Qed.
Lemma headers_loop_good fuel sd cm i out : (length i < fuel)%nat ->
  exists q, headers_loop fuel sd cm i out = Some q /\
    (forall r v, q = POk r v -> sfx r i /\ exists more, fst v = out ++ more /\ (more = [] -> v = (out, false) /\ r = i) /\ (more <> [] -> ssfx r i)) /\ q <> PInc.
Proof.
  revert i out; induction fuel as [|fuel IH]; intros i out Hf; [lia|]. cbn [headers_loop].
  destruct (h_header_good sd cm i) as (q & -> & Hq). destruct q as [rest head| |].
  - specialize (Hq _ _ eq_refl). cbv zeta.
    assert (Hm : [head] <> []) by easy.
    destruct (fis_set _ _).
    + eexists; split; [reflexivity|]. split; [|easy]. intros r v [= <- <-]. split; [now apply ssfx_sfx|].
      exists [head]. repeat split; easy.
    + destruct (complete_eol sd rest) as [rest' e| |] eqn:E.
      { apply prog_complete_eol in E. assert (ssfx rest' i) by (eapply ssfx_sfx_trans; [eassumption|now apply ssfx_sfx]).
        eexists; split; [reflexivity|]. split; [|easy]. intros r v [= <- <-]. split; [now apply ssfx_sfx|].
        exists [head]. repeat split; easy. }
      all: destruct (IH rest (out ++ [head])) as (q & Eq & Hr & Hn); [apply ssfx_length in Hq; lia|];
        exists q; split; [exact Eq|]; split; [|exact Hn]; intros r v Er; destruct (Hr r v Er) as (H1 & more & H2 & H3 & H4);
        assert (ssfx r i) by (eapply sfx_ssfx_trans; eassumption);
        (split; [now apply ssfx_sfx|]); exists (head :: more); rewrite H2, <- app_assoc; repeat split; easy.
  - eexists; split; [reflexivity|]. split; easy.
  - eexists; split; [reflexivity|]. split; [|easy]. intros r v [= <- <-]. split; [apply sfx_refl|].
    exists []. rewrite app_nil_r. repeat split; easy.
Qed.
Lemma h_headers_good sd cm i :
  exists q, h_headers sd cm i = Some q /\ (forall r hs eoh, q = POk r (hs, eoh) -> hs <> [] /\ ssfx r i).
Proof.
  unfold h_headers. destruct (h_header_good sd cm i) as (q & -> & Hq). destruct q as [rest head| |].
  2-3: eexists; split; [reflexivity|discriminate].
  specialize (Hq _ _ eq_refl).
  destruct (fis_set _ _).
  - eexists; split; [reflexivity|]. intros r hs eoh [= <- <- <-]. split; easy.
  - destruct (complete_eol sd rest) as [rest' e| |] eqn:E.
    { apply prog_complete_eol in E. eexists; split; [reflexivity|]. intros r hs eoh [= <- <- <-]. split; [easy|].
      eapply ssfx_sfx_trans; [eassumption|now apply ssfx_sfx]. }
    all: destruct (headers_loop_good (S (length rest)) sd cm rest [head]) as (q & Eq & Hr & Hn); [lia|];
      exists q; split; [exact Eq|]; intros r hs eoh Er; destruct (Hr _ _ Er) as (H1 & more & H2 & _); cbn [fst] in H2; subst hs;
      (split; [easy|]); eapply sfx_ssfx_trans; eassumption.
Qed.

(** * Well-formed header lines (C21, C22) *)
Ltac eqbs := repeat match goal with |- context [?a =? ?b] => first [
  replace (a =? b) with true by (symmetry; apply N.eqb_eq; lia) |
  replace (a =? b) with false by (symmetry; apply N.eqb_neq; lia) ] end.
Lemma is_token_spec c : is_token c = true <-> token_byte c.
Proof.
  unfold is_token, token_byte, is_separator. rewrite !andb_true_iff, negb_true_iff, !N.leb_le.
  rewrite <- (not_true_iff_false (memb _ _)), memb_In. cbn [s2b app In N_of_ascii N_of_digits]. 
  change (s2b "()<>@,;:\/[]?={} " ++ [34; 9]) with [40; 41; 60; 62; 64; 44; 59; 58; 92; 47; 91; 93; 63; 61; 123; 125; 32; 34; 9].
  change (s2b "()<>@,;:\/[]?={}" ++ [34]) with [40; 41; 60; 62; 64; 44; 59; 58; 92; 47; 91; 93; 63; 61; 123; 125; 34].
  cbn [In]. lia.
Qed.
Lemma token_not c : token_byte c -> 33 <= c <= 126 /\ c <> 58.
Proof.
  intros (H & Hn). split; [assumption|]. intros ->. apply Hn. vm_compute. tauto.
Qed.
Lemma name_end_app pos name r : Forall (fun c => c <> 58 /\ c <> 10) name -> name_end pos false (name ++ 58 :: r) = (pos + length name)%nat.
Proof.
  revert pos; induction name as [|c name IH]; intros pos H; cbn [name_end app length].
  - eqbs. lia.
  - inversion H as [|? ? [H1 H2] H3]; subst. eqbs. rewrite IH by assumption. lia.
Qed.
Lemma name_end_none pos name : Forall (fun c => c <> 58 /\ c <> 10) name -> name_end pos false name = 0%nat.
Proof.
  revert pos; induction name as [|c name IH]; intros pos H; cbn [name_end]; [reflexivity|].
  inversion H as [|? ? [H1 H2] H3]; subst. eqbs. now apply IH.
Qed.
Lemma last_byte_app l x : last_byte (l ++ [x]) = Some x.
Proof. unfold last_byte. now rewrite rev_app_distr. Qed.
Lemma last_byte_In l x : last_byte l = Some x -> In x l.
Proof.
  unfold last_byte. destruct (rev l) as [|y r] eqn:E; [discriminate|]. intros [= ->].
  apply in_rev. rewrite E. now left.
Qed.
Lemma drop_last_app l x : drop_last (l ++ [x]) = l.
Proof. unfold drop_last. rewrite rev_app_distr. cbn. apply rev_involutive. Qed.
Lemma name_flags_token name : name <> [] -> Forall token_byte name -> name_flags name = 0.
Proof.
  intros Hne Ht. unfold name_flags. destruct name as [|b name']; [easy|].
  set (name := b :: name') in *.
  assert (Hb : token_byte b) by now inversion Ht.
  replace (nom_is_space b) with false by (apply token_not in Hb; unfold nom_is_space; lia).
  destruct (last_byte name) as [e|] eqn:L.
  - apply last_byte_In in L. rewrite Forall_forall in Ht. apply Ht, token_not in L.
    replace (nom_is_space e) with false by (unfold nom_is_space; lia).
    replace (token_chars name) with (@PInc (bytes * bytes * bytes)); [reflexivity|].
    unfold token_chars, pbind, space0_s, take_while_s, name. cbn [span].
    replace (nom_is_space b) with false by (apply token_not in Hb; unfold nom_is_space; lia).
    fold name. rewrite (span_all is_token name); [reflexivity|]. rewrite Forall_forall. intros x Hx. apply is_token_spec. now apply Ht.
  - unfold last_byte in L. destruct (rev name) eqn:E; [|discriminate]. apply (f_equal (@rev N)) in E. rewrite rev_involutive in E. discriminate.
Qed.
Lemma is_space_spec x : is_space x = true <-> c_space x.
Proof. unfold is_space, c_space, ascii_space. lia. Qed.
Lemma trimmed_middle a m b : Forall c_space a -> Forall c_space b ->
  (forall x m', m = x :: m' -> ~ c_space x) -> (forall x m', m = m' ++ [x] -> ~ c_space x) -> trimmed (a ++ m ++ b) = m \/ m = [].
Proof.
  intros Ha Hb H1 H2. destruct m as [|x m']; [now right|left]. unfold trimmed, trim_end, trim_start.
  rewrite (drop_while_unique is_space (a ++ (x :: m') ++ b) a ((x :: m') ++ b)); [|reflexivity| |].
  - apply (drop_while_end_unique is_space _ _ b); [reflexivity| |].
    + revert Hb. apply Forall_impl. intros; now apply is_space_spec.
    + intros y a' E. specialize (H2 _ _ E). destruct (is_space y) eqn:S; [|reflexivity]. now apply is_space_spec in S.
  - revert Ha. apply Forall_impl. intros; now apply is_space_spec.
  - intros y b' [= <- _]. specialize (H1 _ _ eq_refl). destruct (is_space x) eqn:S; [|reflexivity]. now apply is_space_spec in S.
Qed.
Lemma trimmed_spaces a : Forall c_space a -> trimmed a = [].
Proof.
  intro H. unfold trimmed, trim_start. rewrite (drop_while_unique is_space a a []); [reflexivity|now rewrite app_nil_r| |easy].
  revert H. apply Forall_impl. intros; now apply is_space_spec.
Qed.
Lemma trimmed_hl m b : Forall sp_or_tab b ->
  (forall x m', m = x :: m' -> ~ c_space x) -> (forall x m', m = m' ++ [x] -> ~ c_space x) -> (m = [] -> b = []) -> trimmed (m ++ b) = m.
Proof.
  intros Hb H1 H2 H3. assert (Hb' : Forall c_space b).
  { revert Hb. apply Forall_impl. unfold sp_or_tab, c_space, ascii_space. lia. }
  destruct (trimmed_middle [] m b (Forall_nil _) Hb' H1 H2) as [E | ->]; [exact E|]. now rewrite H3.
Qed.
Lemma trimmed_token name : Forall token_byte name -> trimmed name = name.
Proof.
  intro H. rewrite <- (app_nil_r name) at 1. apply trimmed_hl; [constructor| | |easy].
  - intros x m' ->. inversion H; subst. apply token_not in H2. unfold c_space, ascii_space. lia.
  - intros x m' ->. apply Forall_app in H as [_ H]. inversion H; subst. apply token_not in H2. unfold c_space, ascii_space. lia.
Qed.

(** What may follow a header line for its end to be recognised at once. *)
Definition follow_ok (sd : side) (t : bytes) : Prop :=
  exists c r, t = c :: r /\ c <> 32 /\ c <> 9 /\ c <> 0 /\ (sd = SResp -> c = 13 -> exists r', r = 10 :: r').
Lemma lws_err c r : c <> 32 -> c <> 9 -> c <> 0 -> folding_lws (c :: r) = PErr.
Proof. intros. unfold folding_lws, pbind, p_alt, tag_s. cbn [tag_s_aux]. eqbs. reflexivity. Qed.
Lemma crlf_terminates sd t : follow_ok sd t -> folding_or_terminator sd false ([13; 10] ++ t) = POk t (([13; 10], 0), None).
Proof.
  intros (c & r & -> & H1 & H2 & H3 & H4). unfold folding_or_terminator, pmap, p_alt, pbind, folding. destruct sd.
  - unfold complete_eol, complete_eol_deformed, complete_eol_regular, p_alt, pbind, tag_c, pret. cbn [strip_prefix app]. eqbs. cbn [snd fst].
    rewrite lws_err by assumption. unfold null_or_eol, h_null, h_eol, p_alt, pbind, tag_c. cbn [strip_prefix]. eqbs.
    unfold complete_eol, complete_eol_deformed, complete_eol_regular, p_alt, pbind, tag_c, pret. cbn [strip_prefix app]. eqbs.
    unfold p_not. rewrite lws_err by assumption. reflexivity.
  - unfold complete_eol_regular, p_alt, pbind, tag_c, pret. cbn [strip_prefix app]. eqbs. cbn [snd fst].
    rewrite lws_err by assumption. unfold null_or_eol, h_null, h_eol, p_alt, pbind, tag_c. cbn [strip_prefix]. eqbs.
    assert (D : complete_eol SResp (13 :: 10 :: c :: r) = POk (c :: r) ([13; 10], 0)).
    { unfold complete_eol, complete_eol_deformed, folding_empty, complete_eol_regular, p_alt, pbind, tag_c, pret, one_of_c. cbn [strip_prefix].
      eqbs. replace (memb c [9; 32]) with false by (unfold memb; cbn [existsb]; lia).
      destruct (13 =? c) eqn:E; [|reflexivity]. apply N.eqb_eq in E. subst c. destruct (H4 eq_refl eq_refl) as (r' & ->).
      unfold take_while1_s. cbn [span]. eqbs. reflexivity. }
    rewrite D. unfold p_not. rewrite lws_err by assumption. reflexivity.
Qed.
Definition no_crlf (l : bytes) : Prop := Forall (fun c => c <> 13 /\ c <> 10) l.
Lemma no_crlf_last v x : no_crlf v -> last_byte v = Some x -> x =? 13 = false.
Proof. intros H L. apply last_byte_In in L. unfold no_crlf in H. rewrite Forall_forall in H. apply H in L. lia. Qed.
(** What [value_bytes] looks at once the value itself is passed. *)
Lemma value_bytes_app sd V t : no_crlf V ->
  value_bytes sd false (V ++ [13; 10] ++ t) =
  match folding_or_terminator sd false ([13; 10] ++ t) with POk r res => POk r (V, res) | PErr => PErr | PInc => PInc end.
Proof.
  intro HV. unfold value_bytes, take_till_s, take_while_s. destruct sd.
  - change (V ++ [13; 10] ++ t) with (V ++ [13] ++ 10 :: t). rewrite app_assoc.
    rewrite (span_app _ (V ++ [13]) (10 :: t)).
    + rewrite last_byte_app. change (13 =? 13) with true. cbn match. rewrite drop_last_app, <- app_assoc, skipn_app, skipn_all, Nat.sub_diag. reflexivity.
    + apply Forall_app. split; [|repeat constructor]. revert HV. apply Forall_impl. unfold h_is_eol, is_resp. lia.
    + intros x b' [= <- _]. reflexivity.
  - rewrite (span_app _ V ([13; 10] ++ t)).
    + cbn [app]. destruct (last_byte V) eqn:L; [|reflexivity]. now rewrite (no_crlf_last _ _ HV L).
    + revert HV. apply Forall_impl. unfold h_is_eol, is_resp. lia.
    + intros x b' [= <- _]. reflexivity.
Qed.
Lemma h_value_line sd V t : no_crlf V -> follow_ok sd t ->
  h_value sd false (V ++ [13; 10] ++ t) = Some (POk t (hf_new V (match V with [] => HF_VALUE_EMPTY | _ => 0 end))).
Proof.
  intros HV Ht. unfold h_value. rewrite value_bytes_app, crlf_terminates by assumption.
  destruct V; reflexivity.
Qed.

Definition ph_of (l : hline) : pheader :=
  mk_ph (mk_hf (hl_name l) 0) (mk_hf (hl_value l) (match hl_value l with [] => HF_VALUE_EMPTY | _ => 0 end)).
Lemma good_hline_parts l : good_hline l ->
  Forall (fun c => c <> 58 /\ c <> 10) (hl_name l) /\ no_crlf (hl_value l ++ hl_post l) /\
  (forall x m t, hl_value l ++ hl_post l ++ 13 :: t = x :: m -> nom_is_space x = false).
Proof.
  intros (H1 & H2 & H3 & H4 & H5 & H6 & H7 & H8). split; [|split].
  - revert H2. apply Forall_impl. intros a Ha. apply token_not in Ha. lia.
  - apply Forall_app. split; [assumption|]. revert H4. apply Forall_impl. unfold sp_or_tab. lia.
  - intros x m t E. destruct (hl_value l) as [|y v].
    + rewrite H8 in E by reflexivity. cbn in E. injection E as <- _. reflexivity.
    + cbn in E. injection E as <- _. specialize (H6 _ _ eq_refl). unfold c_space, ascii_space in H6. unfold nom_is_space. lia.
Qed.
Lemma sep_line pre V : Forall sp_or_tab pre -> (forall x m, V = x :: m -> nom_is_space x = false) -> V <> [] ->
  separator_regular (58 :: pre ++ V) = POk V ([58], pre).
Proof.
  intros Hp HV Hne. unfold separator_regular, pbind, tag_c, space0_s, take_while_s. cbn [strip_prefix]. eqbs.
  rewrite (span_app nom_is_space pre V).
  - destruct V; [easy|reflexivity].
  - revert Hp. apply Forall_impl. unfold sp_or_tab, nom_is_space. lia.
  - exact HV.
Qed.
Lemma h_name_app name r : name <> [] -> Forall token_byte name -> h_name (name ++ 58 :: r) = POk (58 :: r) (mk_hf name 0).
Proof.
  intros Hne Ht. unfold h_name.
  rewrite name_end_app by (revert Ht; apply Forall_impl; intros a Ha; apply token_not in Ha; lia).
  cbn [Nat.add]. rewrite firstn_app, firstn_all, skipn_app, skipn_all, Nat.sub_diag. cbn [firstn skipn app]. rewrite app_nil_r.
  unfold hf_new. now rewrite name_flags_token, trimmed_token.
Qed.
Lemma h_header_line sd l t : good_hline l -> follow_ok sd t -> h_header sd false (hl_text l ++ t) = Some (POk t (ph_of l)).
Proof.
  intros Hl Ht. destruct (good_hline_parts l Hl) as (P1 & P2 & P3). destruct Hl as (H1 & H2 & H3 & H4 & H5 & H6 & H7 & H8).
  unfold h_header, header_with_colon, hl_text. change (s2b ":") with [58].
  repeat rewrite <- app_assoc. cbn [app].
  unfold pbind at 1. rewrite h_name_app by assumption. unfold pbind.
  pose proof (sep_line (hl_pre l) (hl_value l ++ hl_post l ++ 13 :: 10 :: t) H3) as E.
  rewrite E; [|intros x m; apply P3|].
  2: { intro E'. apply app_eq_nil in E' as [_ E']. apply app_eq_nil in E' as [_ E']. discriminate. }
  unfold pret. rewrite app_assoc. change (13 :: 10 :: t) with ([13; 10] ++ t). rewrite h_value_line by assumption.
  unfold hf_new. rewrite trimmed_hl by assumption. unfold ph_of. do 3 f_equal.
  destruct (hl_value l); [now rewrite (H8 eq_refl)|reflexivity].
Qed.

(** Prefixes of a value line are incomplete. *)
Lemma take_till_inc sd q : Forall (fun c => h_is_eol sd c = false) q -> take_till_s (h_is_eol sd) q = PInc.
Proof.
  intro H. unfold take_till_s, take_while_s. rewrite span_all; [reflexivity|]. revert H. apply Forall_impl. intros a ->. reflexivity.
Qed.
Inductive value_prefix (sd : side) : bytes -> Prop :=
| vp_plain q : no_crlf q -> value_prefix sd q
| vp_cr q : no_crlf q -> value_prefix sd (q ++ [13])
| vp_crlf q : no_crlf q -> value_prefix sd (q ++ [13; 10])
| vp_crlfcr q : sd = SResp -> no_crlf q -> value_prefix sd (q ++ [13; 10; 13]).
Lemma h_value_prefix sd q : value_prefix sd q -> h_value sd false q = Some PInc.
Proof.
  intro H. unfold h_value. enough (value_bytes sd false q = PInc) as -> by reflexivity.
  destruct H as [q Hq | q Hq | q Hq | q Es Hq].
  - unfold value_bytes. rewrite take_till_inc; [reflexivity|]. revert Hq. apply Forall_impl. unfold h_is_eol. lia.
  - destruct sd.
    + unfold value_bytes. rewrite take_till_inc; [reflexivity|]. apply Forall_app. split; [|repeat constructor].
      revert Hq. apply Forall_impl. unfold h_is_eol, is_resp. lia.
    + unfold value_bytes, take_till_s, take_while_s. rewrite (span_app _ q [13]).
      * destruct (last_byte q) eqn:L; [rewrite (no_crlf_last _ _ Hq L)|]; reflexivity.
      * revert Hq. apply Forall_impl. unfold h_is_eol, is_resp. lia.
      * intros x b' [= <- _]. reflexivity.
  - change [13; 10] with ([13; 10] ++ []). rewrite value_bytes_app by assumption. destruct sd; reflexivity.
  - subst sd. change [13; 10; 13] with ([13; 10] ++ [13]). rewrite value_bytes_app by assumption. reflexivity.
Qed.
(** [q] is what has been seen of the line [l], its end not being known yet. *)
Definition line_prefix (sd : side) (l : hline) (q : bytes) : Prop :=
  (exists q', hl_text l = q ++ q') \/ (sd = SResp /\ q = hl_text l ++ [13]).
Lemma app_split {A} (a b c d : list A) : a ++ b = c ++ d -> (exists m, c = a ++ m /\ b = m ++ d) \/ (exists m, a = c ++ m /\ d = m ++ b).
Proof.
  revert c; induction a as [|x a IH]; intros c H; cbn in H.
  - left. exists c. auto.
  - destruct c as [|y c]; cbn in H.
    + right. exists (x :: a). auto.
    + injection H as -> H. destruct (IH _ H) as [(m & -> & ->) | (m & -> & ->)]; [left|right]; exists m; split; reflexivity.
Qed.
Lemma prefix_value_prefix sd V q q' : no_crlf V -> V ++ [13; 10] = q ++ q' -> value_prefix sd q.
Proof.
  intros HV E. apply app_split in E as [(m & -> & E) | (m & -> & ->)].
  - destruct m as [|a [|b [|c m]]]; cbn in E; try discriminate.
    + rewrite app_nil_r. now apply vp_plain.
    + injection E as <- _. now apply vp_cr.
    + injection E as <- <- _. now apply vp_crlf.
  - apply vp_plain. now apply Forall_app in HV as [HV _].
Qed.
Lemma line_value_prefix sd l q : good_hline l -> line_prefix sd l q -> value_prefix sd q.
Proof.
  intros Hl Hq. destruct (good_hline_parts l Hl) as (P1 & P2 & P3). destruct Hl as (H1 & H2 & H3 & H4 & H5 & H6 & H7 & H8).
  assert (HV : no_crlf (hl_name l ++ s2b ":" ++ hl_pre l ++ hl_value l ++ hl_post l)).
  { apply Forall_app. split; [revert H2; apply Forall_impl; intros a Ha; apply token_not in Ha; lia|].
    apply Forall_app. split; [repeat constructor; easy|].
    apply Forall_app. split; [revert H3; apply Forall_impl; unfold sp_or_tab; lia|]. exact P2. }
  assert (T : hl_text l = (hl_name l ++ s2b ":" ++ hl_pre l ++ hl_value l ++ hl_post l) ++ [13; 10]).
  { unfold hl_text. now repeat rewrite <- app_assoc. }
  destruct Hq as [(q' & E) | (-> & ->)].
  - rewrite T in E. now apply (prefix_value_prefix sd _ q q') in E.
  - rewrite T, <- app_assoc. cbn [app]. now apply vp_crlfcr.
Qed.
Lemma h_name_colon_free q : Forall (fun c => c <> 58 /\ c <> 10) q -> (plet n := h_name in plet _s := separator_regular in pret n) q = PErr.
Proof.
  intro H. unfold pbind at 1, h_name. rewrite name_end_none by assumption. cbn [skipn firstn]. unfold pbind, separator_regular, pbind, tag_c.
  destruct q as [|c q]; [reflexivity|]. inversion H; subst. cbn [strip_prefix]. eqbs. reflexivity.
Qed.
Lemma h_header_prefix sd l q : good_hline l -> line_prefix sd l q -> h_header sd false q = Some PInc.
Proof.
  intros Hl Hq. pose proof (line_value_prefix _ _ _ Hl Hq) as Hv.
  destruct (good_hline_parts l Hl) as (P1 & P2 & P3). pose proof Hl as (H1 & H2 & H3 & H4 & H5 & H6 & H7 & H8).
  assert (Hs : header_sans_colon sd false q = Some PInc).
  { unfold header_sans_colon, p_not, tag_c.
    destruct (strip_prefix [13; 10] q) as [r|] eqn:E.
    - exfalso. apply strip_prefix_Some in E. subst q.
      assert (exists x, hd_error (hl_text l) = Some x /\ x <> 13) as (x & Ex & Nx).
      { unfold hl_text. destruct (hl_name l) as [|x n]; [easy|]. exists x. split; [reflexivity|]. inversion H2; subst. apply token_not in H9. lia. }
      destruct Hq as [(q' & E) | (_ & E)].
      + rewrite E in Ex. cbn in Ex. congruence.
      + destruct (hl_text l); [discriminate|]. cbn in Ex, E. congruence.
    - now rewrite h_value_prefix. }
  unfold h_header. enough (Hw : forall r h, header_with_colon sd false q <> Some (POk r h)).
  { destruct (header_with_colon_good sd false q) as (w & Ew & _). rewrite Ew in *. destruct w; [now elim (Hw rest v)| |]; exact Hs. }
  intros r h Hw. unfold header_with_colon in Hw.
  assert (C : Forall (fun c => c <> 58 /\ c <> 10) q \/ exists q2, q = hl_name l ++ 58 :: q2 /\
    ((exists q', q2 ++ q' = hl_pre l ++ hl_value l ++ hl_post l ++ [13; 10]) \/ (sd = SResp /\ q2 = hl_pre l ++ hl_value l ++ hl_post l ++ [13; 10; 13]))).
  { destruct Hq as [(q' & E) | (Es & E)].
    - unfold hl_text in E. apply app_split in E as [(m & -> & E) | (m & E & _)].
      + change (s2b ":") with [58] in E. cbn [app] in E. destruct m as [|c m].
        * left. rewrite app_nil_r. exact P1.
        * cbn in E. injection E as <- E. right. exists m. split; [reflexivity|]. left. exists q'. now rewrite E.
      + left. rewrite E in P1. now apply Forall_app in P1 as [P1 _].
    - right. subst q. unfold hl_text. change (s2b ":") with [58]. exists (hl_pre l ++ hl_value l ++ hl_post l ++ [13; 10; 13]).
      repeat rewrite <- app_assoc. cbn [app]. split; [reflexivity|]. right. now split. }
  destruct C as [C | (q2 & -> & C)].
  - rewrite h_name_colon_free in Hw by assumption. discriminate.
  - unfold pbind at 1 in Hw. rewrite h_name_app in Hw by assumption. unfold pbind in Hw.
    unfold separator_regular, pbind, tag_c, space0_s, take_while_s in Hw. cbn [strip_prefix] in Hw.
    change (58 =? 58) with true in Hw. cbn match in Hw.
    destruct (span nom_is_space q2) as [a b] eqn:E. destruct b as [|y b']; [discriminate|]. unfold pret in Hw.
    apply span_spec in E as (-> & Ha & Hy). specialize (Hy _ _ eq_refl).
    assert (V : value_prefix sd (y :: b')).
    { assert (G : forall T t, (a ++ y :: b') ++ T = hl_pre l ++ (hl_value l ++ hl_post l ++ 13 :: t) -> a = hl_pre l /\ (y :: b') ++ T = hl_value l ++ hl_post l ++ 13 :: t).
      { intros T t E. assert (M1 : span nom_is_space (a ++ ((y :: b') ++ T)) = (a, (y :: b') ++ T)).
        { apply span_app; [assumption|]. intros x m E'. cbn in E'. injection E' as <- _. exact Hy. }
        assert (M2 : span nom_is_space (hl_pre l ++ (hl_value l ++ hl_post l ++ 13 :: t)) = (hl_pre l, hl_value l ++ hl_post l ++ 13 :: t)).
        { apply span_app; [revert H3; apply Forall_impl; unfold sp_or_tab, nom_is_space; lia|]. intros x m. apply P3. }
        rewrite <- app_assoc in E. rewrite E in M1. rewrite M2 in M1. apply pair_equal_spec in M1 as [M1 M3]. split; congruence. }
      destruct C as [(q' & C) | (Es & C)].
      - apply G in C as [_ C]. rewrite app_assoc in C. eapply prefix_value_prefix; [exact P2|]. symmetry. exact C.
      - specialize (G [] [10; 13]). rewrite !app_nil_r in G. apply G in C as [_ C]. rewrite C, app_assoc. now apply vp_crlfcr. }
    rewrite h_value_prefix in Hw by assumption. discriminate.
Qed.

(** * Blocks of lines *)
Lemma ph_of_not_null l : fis_set (hf_flags (ph_value (ph_of l))) HF_NULL_TERMINATED = false.
Proof. unfold ph_of. cbn. destruct (hl_value l); reflexivity. Qed.
Lemma hl_text_follow sd l t : good_hline l -> t <> [] -> exists c r, hl_text l ++ t = c :: r /\ token_byte c /\ follow_ok sd (hl_text l ++ t) /\ complete_eol sd (hl_text l ++ t) = PErr.
Proof.
  intros (H1 & H2 & _) Ht. unfold hl_text. destruct (hl_name l) as [|c n]; [easy|]. inversion H2; subst.
  cbn [app]. eexists c, _. split; [reflexivity|]. split; [assumption|]. apply token_not in H3. split.
  - eexists c, _. split; [reflexivity|]. repeat split; lia.
  - unfold complete_eol, complete_eol_deformed, complete_eol_regular, p_alt, pbind. destruct sd.
    + unfold tag_c. cbn [strip_prefix]. eqbs. reflexivity.
    + unfold folding_empty, complete_eol_regular, p_alt, pbind, tag_c. cbn [strip_prefix]. eqbs. reflexivity.
Qed.
(** What follows the empty line must not be mistaken for part of it (response side only). *)
Definition after_ok (sd : side) (tail : bytes) : Prop :=
  sd = SReq \/ (forall r, tail <> 13 :: r) /\ (forall b e r, sp_or_tab b -> e = 10 \/ e = 13 -> tail <> b :: e :: r).
Lemma end_of_block sd tail : after_ok sd tail -> complete_eol sd ([13; 10] ++ tail) = POk tail ([13; 10], 0).
Proof.
  intro H. unfold complete_eol, complete_eol_deformed, complete_eol_regular, p_alt, pbind. destruct sd.
  - unfold tag_c. cbn [strip_prefix app]. eqbs. reflexivity.
  - destruct H as [H | [H1 H2]]; [discriminate|]. unfold folding_empty, complete_eol_regular, p_alt, pbind, tag_c. cbn [strip_prefix app]. eqbs.
    destruct tail as [|b t]; [reflexivity|]. unfold one_of_c.
    replace (13 =? b) with false by (symmetry; apply N.eqb_neq; intros <-; now elim (H1 t)).
    destruct (memb b [9; 32]) eqn:M; [|reflexivity].
    destruct t as [|e t]; [reflexivity|].
    assert (sp_or_tab b) by (unfold memb in M; cbn [existsb] in M; unfold sp_or_tab; lia).
    cbn [strip_prefix].
    replace (13 =? e) with false by (symmetry; apply N.eqb_neq; intros <-; now elim (H2 b 13 t); auto).
    replace (10 =? e) with false by (symmetry; apply N.eqb_neq; intros <-; now elim (H2 b 10 t); auto).
    reflexivity.
Qed.
Lemma block_text_cons l ls : block_text (l :: ls) = hl_text l ++ block_text ls. Proof. reflexivity. Qed.
Lemma block_follow sd ls t : Forall good_hline ls -> (ls = [] -> follow_ok sd t) -> t <> [] -> follow_ok sd (block_text ls ++ t).
Proof.
  intros H Ht Hne. destruct ls as [|l ls]; [now apply Ht|]. inversion H; subst. rewrite block_text_cons, <- app_assoc.
  edestruct (hl_text_follow sd l (block_text ls ++ t) H2) as (c & r & _ & _ & F & _); [|exact F]. now destruct (block_text ls).
Qed.
Lemma headers_loop_block sd ls tail fuel out : Forall good_hline ls -> ls <> [] -> after_ok sd tail ->
  (length ls < fuel)%nat -> headers_loop fuel sd false (block_text ls ++ [13; 10] ++ tail) out = Some (POk tail (out ++ map ph_of ls, true)).
Proof.
  intros H Hne Ha. revert fuel out; induction H as [|l ls Hl H IH]; intros fuel out Hf; [easy|].
  destruct fuel as [|fuel]; [cbn in Hf; lia|]. cbn [headers_loop]. rewrite block_text_cons, <- app_assoc.
  rewrite h_header_line; [|assumption|].
  - rewrite ph_of_not_null. destruct ls as [|l2 ls].
    + change (block_text []) with (@nil N). rewrite app_nil_l, (end_of_block sd tail Ha). reflexivity.
    + rewrite block_text_cons, <- app_assoc. inversion H; subst.
      edestruct (hl_text_follow sd l2 (block_text ls ++ [13; 10] ++ tail) H2) as (c & r & _ & _ & _ & E); [now destruct (block_text ls)|].
      rewrite E. rewrite app_assoc, <- block_text_cons. rewrite IH; [|easy|cbn in *; lia].
      now rewrite <- app_assoc.
  - apply block_follow; [assumption| |easy]. intros _. exists 13, (10 :: tail). repeat split; try lia. eauto.
Qed.
Lemma h_headers_block sd ls tail : Forall good_hline ls -> ls <> [] -> after_ok sd tail ->
  h_headers sd false (block_text ls ++ [13; 10] ++ tail) = Some (POk tail (map ph_of ls, true)).
Proof.
  intros H Hne Ha. destruct ls as [|l ls]; [easy|]. inversion H as [|? ? Hl H']; subst.
  unfold h_headers. rewrite block_text_cons, <- app_assoc.
  rewrite h_header_line; [|assumption|].
  - rewrite ph_of_not_null. destruct ls as [|l2 ls].
    + change (block_text []) with (@nil N). rewrite app_nil_l, (end_of_block sd tail Ha). reflexivity.
    + rewrite block_text_cons, <- app_assoc. inversion H' as [|? ? Hl2 H'']; subst.
      edestruct (hl_text_follow sd l2 (block_text ls ++ [13; 10] ++ tail) Hl2) as (c & r & _ & _ & _ & E); [now destruct (block_text ls)|].
      rewrite E. rewrite app_assoc, <- block_text_cons. rewrite headers_loop_block; [reflexivity|assumption|easy|assumption|].
      assert (G : forall ks, Forall good_hline ks -> (length ks <= length (block_text ks))%nat).
      { induction 1 as [|k ks Hk _ IH]; [cbn; lia|]. rewrite block_text_cons, app_length. cbn [length].
        assert (0 < length (hl_text k))%nat by (unfold hl_text; rewrite !app_length; cbn; lia). lia. }
      specialize (G _ H'). rewrite app_length. lia.
  - apply block_follow; [assumption| |easy]. intros _. exists 13, (10 :: tail). repeat split; try lia. eauto.
Qed.

(** [q] is what has been seen after the complete lines: part of the next line, or the CR of the empty line (request side). *)
Inductive pending (sd : side) : bytes -> Prop :=
| pd_line l q : good_hline l -> line_prefix sd l q -> q <> [] -> pending sd q
| pd_cr : sd = SReq -> pending sd [13].
Lemma pending_header sd q : pending sd q -> h_header sd false q = Some PInc.
Proof. intros [l q' Hl Hq _ | ->]; [now apply (h_header_prefix sd l)|reflexivity]. Qed.
Lemma pending_follow sd q : pending sd q -> follow_ok sd q /\ complete_eol sd q = PErr.
Proof.
  intros [l q' Hl Hq Hne | ->].
  - assert (exists x r, q' = x :: r /\ token_byte x) as (x & r & -> & Hx).
    { destruct Hl as (H1 & H2 & _). unfold line_prefix, hl_text in Hq. destruct (hl_name l) as [|x n]; [easy|]. inversion H2; subst.
      destruct q' as [|y r]; [easy|]. exists y, r. split; [reflexivity|]. destruct Hq as [(q2 & E) | (_ & E)]; cbn in E; injection E as E _; now subst. }
    apply token_not in Hx. split.
    + exists x, r. repeat split; lia.
    + unfold complete_eol, complete_eol_deformed, complete_eol_regular, p_alt, pbind. destruct sd.
      * unfold tag_c. cbn [strip_prefix]. eqbs. reflexivity.
      * unfold folding_empty, complete_eol_regular, p_alt, pbind, tag_c. cbn [strip_prefix]. eqbs. reflexivity.
  - split; [|reflexivity]. exists 13, []. repeat split; easy.
Qed.
Lemma headers_loop_partial sd ls q fuel out : Forall good_hline ls -> pending sd q ->
  (length ls < fuel)%nat -> headers_loop fuel sd false (block_text ls ++ q) out = Some (POk q (out ++ map ph_of ls, false)).
Proof.
  intros H Hq. revert fuel out; induction H as [|l ls Hl H IH]; intros fuel out Hf.
  - destruct fuel as [|fuel]; [cbn in Hf; lia|]. cbn [headers_loop block_text map concat app]. rewrite pending_header by assumption.
    now rewrite app_nil_r.
  - destruct fuel as [|fuel]; [cbn in Hf; lia|]. cbn [headers_loop]. rewrite block_text_cons, <- app_assoc.
    assert (q <> []) by (destruct Hq; easy).
    rewrite h_header_line; [|assumption|].
    + rewrite ph_of_not_null.
      assert (E : complete_eol sd (block_text ls ++ q) = PErr).
      { destruct ls as [|l2 ls]; [now apply pending_follow|]. rewrite block_text_cons, <- app_assoc. inversion H; subst.
        edestruct (hl_text_follow sd l2 (block_text ls ++ q) H3) as (c & r & _ & _ & _ & E); [now destruct (block_text ls)|exact E]. }
      rewrite E, IH by (cbn in *; lia). now rewrite <- app_assoc.
    + apply block_follow; [assumption| |assumption]. intros _. now apply pending_follow.
Qed.
Lemma block_length ks : Forall good_hline ks -> (length ks <= length (block_text ks))%nat.
Proof.
  induction 1 as [|k ks Hk _ IH]; [cbn; lia|]. rewrite block_text_cons, app_length. cbn [length].
  assert (0 < length (hl_text k))%nat by (unfold hl_text; rewrite !app_length; cbn; lia). lia.
Qed.
Lemma h_headers_partial sd ls q : Forall good_hline ls -> pending sd q ->
  h_headers sd false (block_text ls ++ q) = Some (match ls with [] => PInc | _ => POk q (map ph_of ls, false) end).
Proof.
  intros H Hq. unfold h_headers. destruct ls as [|l ls].
  - cbn [block_text map concat app]. now rewrite pending_header.
  - inversion H as [|? ? Hl H']; subst. rewrite block_text_cons, <- app_assoc.
    assert (q <> []) by (destruct Hq; easy).
    rewrite h_header_line; [|assumption|].
    + rewrite ph_of_not_null.
      assert (E : complete_eol sd (block_text ls ++ q) = PErr).
      { destruct ls as [|l2 ls]; [now apply pending_follow|]. rewrite block_text_cons, <- app_assoc. inversion H' as [|? ? Hl2 H'']; subst.
        edestruct (hl_text_follow sd l2 (block_text ls ++ q) Hl2) as (c & r & _ & _ & _ & E); [now destruct (block_text ls)|exact E]. }
      rewrite E, headers_loop_partial; [reflexivity|assumption|assumption|]. rewrite app_length. pose proof (block_length _ H'). lia.
    + apply block_follow; [assumption| |assumption]. intros _. now apply pending_follow.
Qed.

(** Statement-ready forms. *)
Definition kv_of_ph (h : pheader) : bytes * bytes := (hf_bytes (ph_name h), hf_bytes (ph_value h)).
Lemma kv_ph_of ls : map kv_of_ph (map ph_of ls) = map kv_of ls.
Proof. rewrite map_map. reflexivity. Qed.
Lemma flags_ph_of ls : Forall good_hline ls ->
  Forall (fun h => hf_flags (ph_name h) = 0 /\ (hf_bytes (ph_value h) <> [] -> hf_flags (ph_value h) = 0)) (map ph_of ls).
Proof.
  intros _. apply Forall_forall. intros h Hh. apply in_map_iff in Hh as (l & <- & _). unfold ph_of. cbn. split; [reflexivity|].
  now destruct (hl_value l).
Qed.
Lemma headers_request ls tail : Forall good_hline ls -> ls <> [] -> exists hs,
  h_headers SReq false (block_text ls ++ [13; 10] ++ tail) = Some (POk tail (hs, true)) /\ map kv_of_ph hs = map kv_of ls /\
  Forall (fun h => hf_flags (ph_name h) = 0 /\ (hf_bytes (ph_value h) <> [] -> hf_flags (ph_value h) = 0)) hs.
Proof.
  intros H Hne. exists (map ph_of ls). split; [apply h_headers_block; [assumption|assumption|now left]|].
  split; [apply kv_ph_of|now apply flags_ph_of].
Qed.
Lemma headers_response ls tail : Forall good_hline ls -> ls <> [] ->
  (forall r, tail <> 13 :: r) -> (forall b e r, sp_or_tab b -> e = 10 \/ e = 13 -> tail <> b :: e :: r) -> exists hs,
  h_headers SResp false (block_text ls ++ [13; 10] ++ tail) = Some (POk tail (hs, true)) /\ map kv_of_ph hs = map kv_of ls /\
  Forall (fun h => hf_flags (ph_name h) = 0 /\ (hf_bytes (ph_value h) <> [] -> hf_flags (ph_value h) = 0)) hs.
Proof.
  intros H Hne H1 H2. exists (map ph_of ls). split; [apply h_headers_block; [assumption|assumption|right; split; assumption]|].
  split; [apply kv_ph_of|now apply flags_ph_of].
Qed.
Lemma headers_total sd cm i : exists q, h_headers sd cm i = Some q /\
  (forall r hs eoh, q = POk r (hs, eoh) -> hs <> [] /\ exists p, p <> [] /\ i = p ++ r).
Proof. exact (h_headers_good sd cm i). Qed.
Lemma headers_response_tail : exists r hs, h_headers SResp false (s2b "A: b" ++ [13; 10; 13; 10] ++ [32; 10] ++ s2b "x") = Some (POk r (hs, true)) /\
  r = s2b "x".
Proof. eexists _, _. split; [vm_compute; reflexivity|reflexivity]. Qed.
(** * Folded values and unusual names (C21) *)
Lemma crlf_folds sd b t : sp_or_tab b -> folding_or_terminator sd false ([13; 10] ++ b :: t) = POk t (([13; 10], HF_FOLDING), Some [b]).
Proof.
  intro Hb. unfold folding_or_terminator, pmap, p_alt, pbind, folding. destruct sd.
  - unfold complete_eol, complete_eol_deformed, complete_eol_regular, p_alt, pbind, tag_c, pret. cbn [strip_prefix app]. eqbs. cbn [snd fst].
    unfold folding_lws, pbind, p_alt, tag_s, pret. cbn [tag_s_aux]. destruct Hb as [-> | ->]; reflexivity.
  - unfold complete_eol_regular, p_alt, pbind, tag_c, pret. cbn [strip_prefix app]. eqbs. cbn [snd fst].
    unfold folding_lws, pbind, p_alt, tag_s, pret. cbn [tag_s_aux]. destruct Hb as [-> | ->]; reflexivity.
Qed.
(** A continuation line holding no colon is not taken for a header of its own. *)
Lemma no_colon_no_header V t : no_crlf V -> Forall (fun c => c <> 58) V ->
  (plet u := token_chars in plet s := separator_regular in pret u) (V ++ [13; 10] ++ t) = PErr.
Proof.
  intros HV Hc. assert (G : forall q, no_crlf q -> Forall (fun c => c <> 58) q -> forall p, (forall c, p c = true -> c <> 13) ->
    exists a q', take_while_s p (q ++ [13; 10] ++ t) = POk (q' ++ [13; 10] ++ t) a /\ no_crlf q' /\ Forall (fun c => c <> 58) q').
  { clear. intros q Hq Hc p Hp. unfold take_while_s. destruct (span p q) as [a b] eqn:E. apply span_spec in E as (-> & Ha & Hb).
    apply Forall_app in Hq as [_ Hq]. apply Forall_app in Hc as [_ Hc]. exists a, b. split; [|split; assumption].
    rewrite <- app_assoc. rewrite (span_app p a (b ++ [13; 10] ++ t)); [destruct b; reflexivity|assumption|].
    intros x m Ex. destruct b as [|y b]; cbn in Ex; injection Ex as <- _; [|now apply (Hb _ _ eq_refl)].
    destruct (p 13) eqn:P; [|reflexivity]. now elim (Hp _ P). }
  unfold pbind at 1, token_chars. unfold pbind at 1, space0_s.
  destruct (G V HV Hc nom_is_space) as (a1 & q1 & -> & H1 & C1); [intros c; unfold nom_is_space; lia|].
  unfold pbind at 1. destruct (G q1 H1 C1 is_token) as (a2 & q2 & -> & H2 & C2).
  { intros c P ->. vm_compute in P. discriminate. }
  unfold pbind at 1. destruct (G q2 H2 C2 nom_is_space) as (a3 & q3 & -> & H3 & C3); [intros c; unfold nom_is_space; lia|].
  unfold pret, pbind, separator_regular, pbind, tag_c. destruct q3 as [|x q3]; cbn [app strip_prefix]; [reflexivity|].
  inversion C3; subst. eqbs. reflexivity.
Qed.

Definition cont_ok (sd : side) (V : bytes) : Prop := no_crlf V /\ (sd = SResp -> Forall (fun x => x <> 58) V).
Lemma fold_text_cons c cs : fold_text (c :: cs) = [13; 10] ++ fst c :: snd c ++ fold_text cs.
Proof. reflexivity. Qed.
Lemma value_bytes_folds sd V cs t : no_crlf V -> Forall (fun c => sp_or_tab (fst c)) cs -> follow_ok sd t ->
  value_bytes sd false (V ++ fold_text cs ++ [13; 10] ++ t) =
  match cs with
  | [] => POk t (V, (([13; 10], 0), None))
  | c :: cs' => POk (snd c ++ fold_text cs' ++ [13; 10] ++ t) (V, (([13; 10], HF_FOLDING), Some [fst c]))
  end.
Proof.
  intros HV Hc Ht. destruct cs as [|[b W] cs].
  - change (fold_text []) with (@nil N). rewrite app_nil_l, value_bytes_app, crlf_terminates by assumption. reflexivity.
  - inversion Hc; subst. rewrite fold_text_cons. rewrite <- !app_assoc. cbn [fst snd]. rewrite value_bytes_app by assumption.
    replace ((b :: W ++ fold_text cs) ++ [13; 10] ++ t) with (b :: (W ++ fold_text cs ++ [13; 10] ++ t)) by (cbn [app]; now rewrite <- app_assoc).
    rewrite crlf_folds by assumption. reflexivity.
Qed.
Lemma value_loop_folds sd t cs : follow_ok sd t -> Forall (fun c => sp_or_tab (fst c) /\ cont_ok sd (snd c)) cs ->
  forall b V rest value fuel, cont_ok sd V -> value <> [] -> (length cs < fuel)%nat ->
  value_loop fuel sd false rest (V ++ fold_text cs ++ [13; 10] ++ t) [b] value HF_FOLDING =
  Some (POk t (hf_new (value ++ b :: V ++ folds_value cs) HF_FOLDING)).
Proof.
  intro Ht. induction 1 as [|[b' W] cs [Hb' HW] H IH]; intros b V rest value fuel HV Hne Hf.
  - destruct fuel as [|fuel]; [cbn in Hf; lia|]. cbn [value_loop].
    assert (S : forall X, (if is_resp sd then match (plet t0 := token_chars in plet s := separator_regular in pret t0) (V ++ fold_text [] ++ [13; 10] ++ t) with
      | POk _ (_, tokens, _) => match tokens with [] => X | _ => Some (POk (V ++ fold_text [] ++ [13; 10] ++ t)
          (hf_new value (match value with [] => fset (funset HF_FOLDING HF_FOLDING_SPECIAL_CASE) HF_VALUE_EMPTY | _ => funset HF_FOLDING HF_FOLDING_SPECIAL_CASE end))) end
      | PErr => X | PInc => Some PInc end else X) = X).
    { intro X. destruct sd; [reflexivity|]. cbn [is_resp]. change (fold_text []) with (@nil N). rewrite app_nil_l.
      rewrite no_colon_no_header; [reflexivity|apply HV|now apply HV]. }
    rewrite S. clear S. rewrite value_bytes_folds; [|apply HV|constructor|assumption].
    destruct value as [|v0 value]; [easy|]. cbn [length negb]. rewrite orb_true_r. unfold folds_value. cbn [map concat]. rewrite app_nil_r.
    change (fset HF_FOLDING 0) with HF_FOLDING. do 3 f_equal. now rewrite <- app_assoc.
  - destruct fuel as [|fuel]; [cbn in Hf; lia|]. cbn [value_loop].
    assert (S : forall X, (if is_resp sd then match (plet t0 := token_chars in plet s := separator_regular in pret t0) (V ++ fold_text ((b', W) :: cs) ++ [13; 10] ++ t) with
      | POk _ (_, tokens, _) => match tokens with [] => X | _ => Some (POk (V ++ fold_text ((b', W) :: cs) ++ [13; 10] ++ t)
          (hf_new value (match value with [] => fset (funset HF_FOLDING HF_FOLDING_SPECIAL_CASE) HF_VALUE_EMPTY | _ => funset HF_FOLDING HF_FOLDING_SPECIAL_CASE end))) end
      | PErr => X | PInc => Some PInc end else X) = X).
    { intro X. destruct sd; [reflexivity|]. cbn [is_resp]. rewrite fold_text_cons, <- !app_assoc.
      rewrite no_colon_no_header; [reflexivity|apply HV|now apply HV]. }
    rewrite S. clear S. rewrite value_bytes_folds; [|apply HV| |assumption].
    2: { constructor; [assumption|]. revert H. apply Forall_impl. tauto. }
    destruct value as [|v0 value]; [easy|]. cbn [length negb fst snd]. rewrite orb_true_r.
    change (fset HF_FOLDING HF_FOLDING) with HF_FOLDING.
    rewrite IH; [|assumption|easy|cbn in Hf; lia].
    unfold folds_value. cbn [map concat fst snd]. do 3 f_equal. rewrite <- !app_assoc. cbn [app]. reflexivity.
Qed.
Lemma fold_text_length cs : (length cs <= length (fold_text cs))%nat.
Proof. induction cs as [|c cs IH]; [cbn; lia|]. rewrite fold_text_cons. cbn [app length]. rewrite app_length. lia. Qed.
Lemma h_value_folds sd V cs t : no_crlf V -> V <> [] -> cs <> [] -> follow_ok sd t -> Forall (fun c => sp_or_tab (fst c) /\ cont_ok sd (snd c)) cs ->
  h_value sd false (V ++ fold_text cs ++ [13; 10] ++ t) = Some (POk t (hf_new (V ++ folds_value cs) HF_FOLDING)).
Proof.
  intros HV Hne Hcs Ht H. unfold h_value. rewrite value_bytes_folds; [|assumption| |assumption].
  2: { revert H. apply Forall_impl. tauto. }
  destruct cs as [|[b W] cs]; [easy|]. inversion H as [|? ? [H1 H2] H3]; subst. cbn [fst snd].
  rewrite value_loop_folds; [reflexivity|assumption|assumption|assumption|assumption|].
  rewrite !app_length. pose proof (fold_text_length cs). lia.
Qed.
(** A name may hold blanks and may itself be folded by a bare LF and a space. *)
Lemma name_end_odd n : name_ok n -> forall pos r, name_end pos false (n ++ 58 :: r) = (pos + length n)%nat.
Proof.
  induction 1 as [|c n H1 H2 H IH|n H IH]; intros pos r; cbn [app name_end length].
  - change (58 =? 58) with true. cbn match. lia.
  - eqbs. rewrite IH. lia.
  - change (10 =? 58) with false. change (10 =? 10) with true. change (32 =? 32) with true. cbn match. rewrite IH. lia.
Qed.
Lemma h_name_odd n r : name_ok n -> h_name (n ++ 58 :: r) = POk (58 :: r) (hf_new n (name_flags n)).
Proof.
  intro H. unfold h_name. rewrite name_end_odd by assumption. cbn [Nat.add].
  rewrite firstn_app, firstn_all, skipn_app, skipn_all, Nat.sub_diag. cbn [firstn skipn app]. now rewrite app_nil_r.
Qed.

Lemma headers_folded sd l cs tail : good_hline l -> hl_value l <> [] -> cs <> [] -> after_ok sd tail ->
  Forall (fun c => sp_or_tab (fst c) /\ cont_ok sd (snd c)) cs -> exists h,
  h_headers sd false (hl_name l ++ s2b ":" ++ hl_pre l ++ hl_value l ++ hl_post l ++ fold_text cs ++ [13; 10] ++ [13; 10] ++ tail)
    = Some (POk tail ([h], true)) /\
  kv_of_ph h = (hl_name l, trimmed (hl_value l ++ hl_post l ++ folds_value cs)) /\
  hf_flags (ph_name h) = 0 /\ hf_flags (ph_value h) = HF_FOLDING.
Proof.
  intros Hl Hv Hcs Ha Hc. destruct (good_hline_parts l Hl) as (P1 & P2 & P3). destruct Hl as (H1 & H2 & H3 & H4 & H5 & H6 & H7 & H8).
  exists (mk_ph (mk_hf (hl_name l) 0) (hf_new (hl_value l ++ hl_post l ++ folds_value cs) HF_FOLDING)).
  split; [|now repeat split].
  unfold h_headers, h_header, header_with_colon. change (s2b ":") with [58]. change ([58] ++ ?x) with (58 :: x).
  unfold pbind at 1. rewrite h_name_app by assumption. unfold pbind.
  pose proof (sep_line (hl_pre l) (hl_value l ++ hl_post l ++ fold_text cs ++ [13; 10] ++ [13; 10] ++ tail) H3) as E.
  rewrite E; clear E.
  2: { destruct cs as [|c cs]; [easy|]. intros x m. rewrite fold_text_cons, <- app_assoc. cbn [app]. apply P3. }
  2: { destruct (hl_value l); easy. }
  unfold pret. rewrite (app_assoc (hl_value l) (hl_post l)). rewrite h_value_folds; [|assumption|now destruct (hl_value l)|assumption| |assumption].
  2: { exists 13, (10 :: tail). repeat split; try easy. eauto. }
  cbn match. cbn [ph_value hf_new hf_flags]. change (fis_set HF_FOLDING HF_NULL_TERMINATED) with false. cbn match.
  rewrite (end_of_block sd tail Ha). now rewrite <- app_assoc.
Qed.
Lemma name_flags_ws n : n <> [] ->
  (fis_set (name_flags n) HF_NAME_LEADING_WHITESPACE = true <-> exists b n', n = b :: n' /\ sp_or_tab b) /\
  (fis_set (name_flags n) HF_NAME_TRAILING_WHITESPACE = true <-> exists b n', n = n' ++ [b] /\ sp_or_tab b).
Proof.
  intro Hne. unfold name_flags. destruct n as [|b n]; [easy|].
  destruct (last_byte (b :: n)) as [e|] eqn:L.
  2: { unfold last_byte in L. destruct (rev (b :: n)) eqn:E; [|discriminate]. apply (f_equal (@rev N)) in E. rewrite rev_involutive in E. discriminate. }
  assert (Hl : exists n', b :: n = n' ++ [e]).
  { unfold last_byte in L. destruct (rev (b :: n)) as [|e' r] eqn:E; [discriminate|]. injection L as ->. exists (rev r).
    apply (f_equal (@rev N)) in E. rewrite rev_involutive in E. exact E. }
  destruct Hl as (n1 & Hn).
  assert (S : forall x, nom_is_space x = true <-> sp_or_tab x) by (intro x; unfold nom_is_space, sp_or_tab; lia).
  assert (A1 : (exists b0 n', b :: n = b0 :: n' /\ sp_or_tab b0) <-> nom_is_space b = true).
  { rewrite S. split; [intros (? & ? & [= -> _] & H); exact H|eauto]. }
  assert (A2 : (exists b0 n', b :: n = n' ++ [b0] /\ sp_or_tab b0) <-> nom_is_space e = true).
  { rewrite S. split; [|intro H; exists e, n1; auto]. intros (b0 & n' & E & H). rewrite Hn in E. apply app_inj_tail in E as [_ ->]. exact H. }
  rewrite A1, A2. destruct (nom_is_space b), (nom_is_space e), (token_chars (b :: n)) as [[|? ?] ?| |]; vm_compute; intuition discriminate.
Qed.
Lemma header_odd_name sd n l tail : good_hline l -> name_ok n -> n <> [] -> after_ok sd tail -> exists h,
  h_headers sd false (n ++ s2b ":" ++ hl_pre l ++ hl_value l ++ hl_post l ++ [13; 10] ++ [13; 10] ++ tail) = Some (POk tail ([h], true)) /\
  kv_of_ph h = (trimmed n, hl_value l) /\
  (fis_set (hf_flags (ph_name h)) HF_NAME_LEADING_WHITESPACE = true <-> exists b n', n = b :: n' /\ sp_or_tab b) /\
  (fis_set (hf_flags (ph_name h)) HF_NAME_TRAILING_WHITESPACE = true <-> exists b n', n = n' ++ [b] /\ sp_or_tab b).
Proof.
  intros Hl Hn Hne Ha. destruct (good_hline_parts l Hl) as (P1 & P2 & P3). pose proof Hl as (H1 & H2 & H3 & H4 & H5 & H6 & H7 & H8).
  exists (mk_ph (hf_new n (name_flags n)) (hf_new (hl_value l ++ hl_post l) (match hl_value l ++ hl_post l with [] => HF_VALUE_EMPTY | _ => 0 end))).
  split; [|split; [|now apply name_flags_ws]].
  - unfold h_headers, h_header, header_with_colon. change (s2b ":") with [58]. change ([58] ++ ?x) with (58 :: x).
    unfold pbind at 1. rewrite h_name_odd by assumption. unfold pbind.
    pose proof (sep_line (hl_pre l) (hl_value l ++ hl_post l ++ [13; 10] ++ [13; 10] ++ tail) H3) as E.
    rewrite E; clear E; [|intros x m; cbn [app]; apply P3|].
    2: { intro E'. apply app_eq_nil in E' as [_ E']. apply app_eq_nil in E' as [_ E']. discriminate. }
    unfold pret. rewrite (app_assoc (hl_value l) (hl_post l)). rewrite h_value_line; [|assumption|].
    2: { exists 13, (10 :: tail). repeat split; try easy. eauto. }
    cbn match. cbn [ph_value hf_new hf_flags].
    replace (fis_set _ HF_NULL_TERMINATED) with false by (destruct (hl_value l ++ hl_post l); reflexivity).
    rewrite (end_of_block sd tail Ha). reflexivity.
  - unfold kv_of_ph. cbn [ph_name ph_value hf_new hf_bytes]. now rewrite trimmed_hl.
Qed.
Lemma folded_request l cs tail : good_hline l -> hl_value l <> [] -> cs <> [] ->
  Forall (fun c => sp_or_tab (fst c) /\ Forall (fun x => x <> 13 /\ x <> 10) (snd c)) cs -> exists h,
  h_headers SReq false (hl_name l ++ s2b ":" ++ hl_pre l ++ hl_value l ++ hl_post l ++ fold_text cs ++ [13; 10] ++ [13; 10] ++ tail)
    = Some (POk tail ([h], true)) /\
  kv_of_ph h = (hl_name l, trimmed (hl_value l ++ hl_post l ++ folds_value cs)) /\
  hf_flags (ph_name h) = 0 /\ hf_flags (ph_value h) = HF_FOLDING.
Proof.
  intros H1 H2 H3 H4. apply headers_folded; [assumption|assumption|assumption|now left|].
  revert H4. apply Forall_impl. intros c [A B]. split; [assumption|split; [exact B|easy]].
Qed.
Lemma folded_response l cs tail : good_hline l -> hl_value l <> [] -> cs <> [] ->
  Forall (fun c => sp_or_tab (fst c) /\ Forall (fun x => x <> 13 /\ x <> 10 /\ x <> 58) (snd c)) cs ->
  (forall r, tail <> 13 :: r) -> (forall b e r, sp_or_tab b -> e = 10 \/ e = 13 -> tail <> b :: e :: r) -> exists h,
  h_headers SResp false (hl_name l ++ s2b ":" ++ hl_pre l ++ hl_value l ++ hl_post l ++ fold_text cs ++ [13; 10] ++ [13; 10] ++ tail)
    = Some (POk tail ([h], true)) /\
  kv_of_ph h = (hl_name l, trimmed (hl_value l ++ hl_post l ++ folds_value cs)) /\
  hf_flags (ph_name h) = 0 /\ hf_flags (ph_value h) = HF_FOLDING.
Proof.
  intros H1 H2 H3 H4 H5 H6. apply headers_folded; [assumption|assumption|assumption|right; now split|].
  revert H4. apply Forall_impl. intros c [A B]. split; [assumption|split].
  - revert B. apply Forall_impl. tauto.
  - intros _. revert B. apply Forall_impl. tauto.
Qed.
Lemma odd_name_request n l tail : good_hline l -> name_ok n -> n <> [] -> exists h,
  h_headers SReq false (n ++ s2b ":" ++ hl_pre l ++ hl_value l ++ hl_post l ++ [13; 10] ++ [13; 10] ++ tail) = Some (POk tail ([h], true)) /\
  kv_of_ph h = (trimmed n, hl_value l) /\
  (fis_set (hf_flags (ph_name h)) HF_NAME_LEADING_WHITESPACE = true <-> exists b n', n = b :: n' /\ sp_or_tab b) /\
  (fis_set (hf_flags (ph_name h)) HF_NAME_TRAILING_WHITESPACE = true <-> exists b n', n = n' ++ [b] /\ sp_or_tab b).
Proof. intros. apply header_odd_name; auto. now left. Qed.
