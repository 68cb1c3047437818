(** Proofs about the gzip header (ModelDecomp.v): the machine stays in step with the header whatever the cuts. *)
From Verif Require Import Base ModelUtil ModelState ModelTx ModelDecomp SpecDecomp ProofsDecomp ProofsInflate.
From Coq Require Import Lia.

Definition tail_crc (h : gzhead) : bytes := match gh_crc h with Some (a, b) => [a; b] | None => [] end.
Definition tail_comment (h : gzhead) : bytes := zeroed (gh_comment h) ++ tail_crc h.
Definition tail_name (h : gzhead) : bytes := zeroed (gh_name h) ++ tail_comment h.
Definition tail_xlen (h : gzhead) : bytes :=
  match gh_extra h with Some b => [blen b mod 256; blen b / 256] ++ b | None => [] end ++ tail_name h.
Lemma gh_bytes_eq h : gh_bytes h = [31; 139; 8; gh_flags h] ++ gh_fixed h ++ tail_xlen h.
Proof. unfold gh_bytes, tail_xlen, tail_name, tail_comment, tail_crc. reflexivity. Qed.
Lemma flag_bits (t c x n m : bool) res : res < 8 ->
  let fl := bit t 1 + bit c 2 + bit x 4 + bit n 8 + bit m 16 + 32 * res in
  negb (N.land fl FHCRC =? 0) = c /\ negb (N.land fl FEXTRA =? 0) = x /\ negb (N.land fl FNAME =? 0) = n /\ negb (N.land fl FCOMMENT =? 0) = m.
Proof.
  intros H. assert (E : res = 0 \/ res = 1 \/ res = 2 \/ res = 3 \/ res = 4 \/ res = 5 \/ res = 6 \/ res = 7) by lia.
  destruct E as [-> | [-> | [-> | [-> | [-> | [-> | [-> | ->]]]]]]]; destruct t, c, x, n, m; vm_compute; auto.
Qed.
Lemma app_split (u t p q : bytes) : u ++ t = p ++ q -> (exists v, u = p ++ v /\ q = v ++ t) \/ (exists v, p = u ++ v /\ t = v ++ q).
Proof.
  revert p. induction u as [|a u IH]; intros p E; [right; exists p; auto|]. destruct p as [|c p]; [left; exists (a :: u); auto|].
  cbn in E. injection E as <- E. destruct (IH p E) as [(v & -> & ->) | (v & -> & ->)]; [left|right]; exists v; auto.
Qed.
Lemma after_nul_none u : ~ In 0 u -> after_nul u = None.
Proof. induction u as [|a u IH]; intros H; [reflexivity|]. cbn. destruct (N.eqb_spec a 0) as [->|]; [destruct H; now left|]. apply IH. intros Hi. apply H. now right. Qed.
Lemma after_nul_some u z : ~ In 0 u -> after_nul (u ++ [0] ++ z) = Some z.
Proof. induction u as [|a u IH]; intros H; [reflexivity|]. cbn. destruct (N.eqb_spec a 0) as [->|]; [destruct H; now left|]. apply IH. intros Hi. apply H. now right. Qed.

Section Gz.
Variable r : raw.
Variable h : gzhead.
Hypothesis Hh : good_gzhead h.
(** What is left of the header, by state. *)
Inductive gzpos (g : gz r) (rem : bytes) : Prop :=
| gp_start : gz_state r g = GzStart -> gz_xlen r g = 0 -> (length (gz_buf r g) < 10)%nat -> gh_bytes h = gz_buf r g ++ rem -> gzpos g rem
| gp_xlen : gz_state r g = GzXlen -> gz_xlen r g = 0 -> gz_flags r g = gh_flags h -> rem = tail_xlen h -> gzpos g rem
| gp_extra u : gz_state r g = GzExtra -> gz_flags r g = gh_flags h -> blen u = gz_xlen r g -> rem = u ++ tail_name h -> gzpos g rem
| gp_name u : gz_state r g = GzFilename -> gz_flags r g = gh_flags h -> gh_name h <> None -> ~ In 0 u -> rem = u ++ [0] ++ tail_comment h -> gzpos g rem
| gp_comment u : gz_state r g = GzComment -> gz_flags r g = gh_flags h -> gh_comment h <> None -> ~ In 0 u -> rem = u ++ [0] ++ tail_crc h -> gzpos g rem
| gp_crc : gz_state r g = GzCrc -> gz_flags r g = gh_flags h -> rem = tail_crc h -> gzpos g rem
| gp_done : gz_state r g = GzAfterHeader -> rem = [] -> gzpos g rem.
Definition clean_rem (rem : bytes) : Prop :=
  (gh_crc h <> None -> length rem <> 1%nat) /\
  (forall b, gh_extra h = Some b -> length rem <> (1 + length b + length (tail_name h))%nat).
(** [f n g p] takes [p], which begins with [tail] or is the beginning of [tail]; [n] is the length of the data. *)
Definition stage (f : N -> gz r -> bytes -> ior N * gz r) (g : gz r) (tail : bytes) : Prop := forall n p,
  (forall rem, tail = p ++ rem -> rem <> [] -> clean_rem rem -> exists g', f n g p = (IoOk n, g') /\ gz_inner r g' = gz_inner r g /\ gzpos g' rem) /\
  (forall z, p = tail ++ z -> exists g', f n g p = (IoOk (n - blen z), g') /\ gz_inner r g' = gz_inner r g /\ gz_state r g' = GzAfterHeader).

Lemma has_bits g : gz_flags r g = gh_flags h ->
  has r FHCRC g = given (gh_crc h) /\ has r FEXTRA g = given (gh_extra h) /\ has r FNAME g = given (gh_name h) /\ has r FCOMMENT g = given (gh_comment h).
Proof using Hh. intros E. unfold has. rewrite E. destruct Hh as (_ & Hr & _). exact (flag_bits (gh_text h) _ _ _ _ _ Hr). Qed.
Lemma stage_crc g : gz_state r g = GzCrc -> gz_flags r g = gh_flags h -> stage (gz_crc r) g (tail_crc h).
Proof using Hh.
  intros Es Ef n p. destruct (has_bits g Ef) as (Hc & _). unfold gz_crc. rewrite Hc. unfold tail_crc. destruct (gh_crc h) as [[a b]|] eqn:Ec; cbn [given]; split.
  - intros rem E Ne Hcl. destruct p as [|x [|y p]].
    + exists g. cbn [le_u16]. rewrite N.sub_0_r. split; [reflexivity|]. split; [reflexivity|]. apply gp_crc; [exact Es|exact Ef|]. unfold tail_crc. rewrite Ec. exact (eq_sym E).
    + exfalso. destruct Hcl as [H1 _]. apply H1; [congruence|]. cbn in E. injection E as _ E. now rewrite <- E.
    + exfalso. cbn in E. injection E as _ _ E. destruct p; cbn in E; [subst rem; congruence|discriminate].
  - intros z ->. cbn [app le_u16]. eexists. split; [reflexivity|]. split; reflexivity.
  - intros rem E Ne. exfalso. destruct p; cbn in E; [congruence|discriminate].
  - intros z ->. eexists. split; [reflexivity|]. split; reflexivity.
Qed.
Lemma stage_comment_u g u : gz_state r g = GzComment -> gz_flags r g = gh_flags h -> gh_comment h <> None -> ~ In 0 u -> stage (gz_comment r) g (u ++ [0] ++ tail_crc h).
Proof using Hh.
  intros Es Ef Hn Hu n p. destruct (has_bits g Ef) as (_ & _ & _ & Hm). unfold gz_comment. rewrite Hm. destruct (gh_comment h) as [cm|] eqn:Ec; [|congruence]. cbn [given].
  destruct (stage_crc (gz_goto r GzCrc g) eq_refl Ef n (match after_nul p with Some q => q | None => [] end)) as [S1 S2]. split.
  - intros rem E Ne Hcl. destruct (app_split _ _ _ _ E) as [(v & -> & Erem) | (v & -> & E2)].
    + rewrite after_nul_none by (intros Hi; apply Hu, in_or_app; auto). exists g. split; [reflexivity|]. split; [reflexivity|].
      eapply gp_comment with (u := v); [exact Es|exact Ef|congruence|intros Hi; apply Hu, in_or_app; auto|exact Erem].
    + destruct v as [|c v].
      * rewrite app_nil_r, after_nul_none by exact Hu. exists g. split; [reflexivity|]. split; [reflexivity|].
        eapply gp_comment with (u := []); [exact Es|exact Ef|congruence|auto|exact (eq_sym E2)].
      * cbn in E2. injection E2 as <- E2. change (0 :: v) with ([0] ++ v) in *. rewrite after_nul_some in * by exact Hu. destruct (S1 rem E2 Ne Hcl) as (g' & H1 & H2 & H3). exists g'. auto.
  - intros z ->. rewrite <- !app_assoc in *. rewrite after_nul_some in * by exact Hu. destruct (S2 z eq_refl) as (g' & H1 & H2 & H3). exists g'. auto.
Qed.
Lemma good_name b : gh_name h = Some b \/ gh_comment h = Some b -> ~ In 0 b.
Proof using Hh. apply Hh. Qed.
Lemma stage_comment g : gz_state r g = GzComment -> gz_flags r g = gh_flags h -> stage (gz_comment r) g (tail_comment h).
Proof using Hh.
  intros Es Ef. unfold tail_comment. destruct (gh_comment h) as [cm|] eqn:Ec; cbn [zeroed].
  - rewrite <- app_assoc. apply stage_comment_u; [exact Es|exact Ef|congruence|apply good_name; auto].
  - intros n p. destruct (has_bits g Ef) as (_ & _ & _ & Hm). unfold gz_comment. rewrite Hm, Ec. cbn [given app]. exact (stage_crc (gz_goto r GzCrc g) eq_refl Ef n p).
Qed.
Lemma stage_name_u g u : gz_state r g = GzFilename -> gz_flags r g = gh_flags h -> gh_name h <> None -> ~ In 0 u -> stage (gz_filename r) g (u ++ [0] ++ tail_comment h).
Proof using Hh.
  intros Es Ef Hn Hu n p. destruct (has_bits g Ef) as (_ & _ & Hm & _). unfold gz_filename. rewrite Hm. destruct (gh_name h) as [cm|] eqn:Ec; [|congruence]. cbn [given].
  destruct (stage_comment (gz_goto r GzComment g) eq_refl Ef n (match after_nul p with Some q => q | None => [] end)) as [S1 S2]. split.
  - intros rem E Ne Hcl. destruct (app_split _ _ _ _ E) as [(v & -> & Erem) | (v & -> & E2)].
    + rewrite after_nul_none by (intros Hi; apply Hu, in_or_app; auto). exists g. split; [reflexivity|]. split; [reflexivity|].
      eapply gp_name with (u := v); [exact Es|exact Ef|congruence|intros Hi; apply Hu, in_or_app; auto|exact Erem].
    + destruct v as [|c v].
      * rewrite app_nil_r, after_nul_none by exact Hu. exists g. split; [reflexivity|]. split; [reflexivity|].
        eapply gp_name with (u := []); [exact Es|exact Ef|congruence|auto|exact (eq_sym E2)].
      * cbn in E2. injection E2 as <- E2. change (0 :: v) with ([0] ++ v) in *. rewrite after_nul_some in * by exact Hu. destruct (S1 rem E2 Ne Hcl) as (g' & H1 & H2 & H3). exists g'. auto.
  - intros z ->. rewrite <- !app_assoc in *. rewrite after_nul_some in * by exact Hu. destruct (S2 z eq_refl) as (g' & H1 & H2 & H3). exists g'. auto.
Qed.
Lemma stage_name g : gz_state r g = GzFilename -> gz_flags r g = gh_flags h -> stage (gz_filename r) g (tail_name h).
Proof using Hh.
  intros Es Ef. unfold tail_name. destruct (gh_name h) as [cm|] eqn:Ec; cbn [zeroed].
  - rewrite <- app_assoc. apply stage_name_u; [exact Es|exact Ef|congruence|apply good_name; auto].
  - intros n p. destruct (has_bits g Ef) as (_ & _ & Hm & _). unfold gz_filename. rewrite Hm, Ec. cbn [given app]. exact (stage_comment (gz_goto r GzComment g) eq_refl Ef n p).
Qed.
Lemma stage_extra g u : gz_state r g = GzExtra -> gz_flags r g = gh_flags h -> blen u = gz_xlen r g -> stage (gz_extra r) g (u ++ tail_name h).
Proof using Hh.
  intros Es Ef Eu n p. unfold gz_extra. destruct (N.ltb_spec 0 (gz_xlen r g)) as [Hx|Hx].
  - destruct (stage_name (gz_goto r GzFilename g) eq_refl Ef n (skipn (N.to_nat (gz_xlen r g)) p)) as [S1 S2]. split.
    + intros rem E Ne Hcl. destruct (app_split _ _ _ _ E) as [(v & Ev & Erem) | (v & -> & E2)].
      * destruct v as [|c v].
        -- rewrite app_nil_r in Ev. subst p. rewrite Eu, N.ltb_irrefl. assert (En : skipn (N.to_nat (gz_xlen r g)) u = []) by (apply skipn_all2; unfold blen in Eu; lia). rewrite En in *.
           cbn [app] in Erem. destruct (S1 rem (eq_sym Erem) Ne Hcl) as (g' & H1 & H2 & H3). exists g'. auto.
        -- assert (Hlt : blen p < gz_xlen r g) by (rewrite <- Eu, Ev; unfold blen; rewrite app_length; cbn; lia).
           rewrite (proj2 (N.ltb_lt _ _) Hlt). eexists. split; [reflexivity|]. split; [reflexivity|].
           eapply gp_extra with (u := c :: v); [exact Es|exact Ef| |exact Erem]. cbn [gz_xlen]. rewrite <- Eu, Ev. unfold blen. rewrite app_length. lia.
      * assert (Hge : gz_xlen r g <= blen (u ++ v)) by (rewrite <- Eu; unfold blen; rewrite app_length; lia). rewrite (proj2 (N.ltb_ge _ _) Hge).
        assert (En : skipn (N.to_nat (gz_xlen r g)) (u ++ v) = v) by (rewrite <- Eu; unfold blen; rewrite Nnat.Nat2N.id, skipn_app, skipn_all, Nat.sub_diag; reflexivity). rewrite En in *.
        destruct (S1 rem E2 Ne Hcl) as (g' & H1 & H2 & H3). exists g'. auto.
    + intros z ->. rewrite <- app_assoc in *. assert (Hge : gz_xlen r g <= blen (u ++ tail_name h ++ z)) by (rewrite <- Eu; unfold blen; rewrite app_length; lia). rewrite (proj2 (N.ltb_ge _ _) Hge).
      assert (En : skipn (N.to_nat (gz_xlen r g)) (u ++ tail_name h ++ z) = tail_name h ++ z) by (rewrite <- Eu; unfold blen; rewrite Nnat.Nat2N.id, skipn_app, skipn_all, Nat.sub_diag; reflexivity). rewrite En in *.
      destruct (S2 z eq_refl) as (g' & H1 & H2 & H3). exists g'. auto.
  - assert (u = []) as -> by (destruct u; [reflexivity|exfalso; rewrite <- Eu in Hx; cbn in Hx; lia]). exact (stage_name (gz_goto r GzFilename g) eq_refl Ef n p).
Qed.
Lemma stage_xlen g : gz_state r g = GzXlen -> gz_xlen r g = 0 -> gz_flags r g = gh_flags h -> stage (gz_xlen_step r) g (tail_xlen h).
Proof using Hh.
  intros Es Ex Ef n p. destruct (has_bits g Ef) as (_ & Hm & _). unfold gz_xlen_step. rewrite Hm. unfold tail_xlen. destruct (gh_extra h) as [e|] eqn:Ee; cbn [given].
  - assert (Le : blen e < 65536) by (apply Hh; exact Ee). assert (Ev : blen e mod 256 + 256 * (blen e / 256) = blen e) by (pose proof (N.div_mod' (blen e) 256); lia).
    set (g2 := mk_gz r (gz_buf r g) (gz_flags r g) (blen e) (gz_inner r g) GzExtra). assert (Ee2 : blen e = gz_xlen r g2) by reflexivity. split.
    + intros rem E Ne Hcl. rewrite <- app_assoc in E. destruct p as [|a [|b p]].
      * cbn [le_u16]. rewrite N.sub_0_r. exists g. split; [reflexivity|]. split; [reflexivity|]. apply gp_xlen; [exact Es|exact Ex|exact Ef|]. unfold tail_xlen. rewrite Ee, <- app_assoc. exact (eq_sym E).
      * exfalso. destruct Hcl as [_ H2]. apply (H2 e Ee). cbn in E. injection E as _ E. rewrite <- E. cbn. now rewrite app_length.
      * cbn in E. injection E as <- <- E. cbn [le_u16]. rewrite Ev. fold g2. destruct (stage_extra g2 e eq_refl Ef Ee2 n p) as [S1 _]. destruct (S1 rem E Ne Hcl) as (g' & H1 & H2 & H3). exists g'. auto.
    + intros z ->. rewrite <- !app_assoc. cbn [app le_u16]. rewrite Ev. fold g2. destruct (stage_extra g2 e eq_refl Ef Ee2 n (e ++ tail_name h ++ z)) as [_ S2]. destruct (S2 z) as (g' & H1 & H2 & H3); [now rewrite app_assoc|]. exists g'. auto.
  - cbn [app]. exact (stage_extra (gz_goto r GzExtra g) [] eq_refl Ef (eq_sym Ex) n p).
Qed.
Lemma start_short p rem : gh_bytes h = p ++ rem -> (length p < 10)%nat -> parse_start p = GsIncomplete.
Proof using Hh.
  rewrite gh_bytes_eq. destruct Hh as (H6 & _). destruct (gh_fixed h) as [|f1 [|f2 [|f3 [|f4 [|f5 [|f6 [|f7 fx]]]]]]]; try (unfold blen in H6; cbn in H6; lia).
  intros E L. destruct p as [|p0 [|p1 [|p2 [|p3 [|p4 [|p5 [|p6 [|p7 [|p8 [|p9 p]]]]]]]]]]; cbn in L; try lia; cbn in E; try reflexivity; injection E; intros; subst; reflexivity.
Qed.
Lemma start_long p q rem : gh_bytes h ++ q = p ++ rem -> (10 <= length p)%nat -> exists p', p = [31; 139; 8; gh_flags h] ++ gh_fixed h ++ p' /\ tail_xlen h ++ q = p' ++ rem /\ parse_start p = GsOk (gh_flags h) p'.
Proof using Hh.
  rewrite gh_bytes_eq. destruct Hh as (H6 & _). destruct (gh_fixed h) as [|f1 [|f2 [|f3 [|f4 [|f5 [|f6 [|f7 fx]]]]]]]; try (unfold blen in H6; cbn in H6; lia).
  intros E L. destruct p as [|p0 [|p1 [|p2 [|p3 [|p4 [|p5 [|p6 [|p7 [|p8 [|p9 p]]]]]]]]]]; cbn in L; try lia. cbn in E. injection E as <- <- <- <- <- <- <- <- <- <- E. exists p. auto.
Qed.
(** One write into the machine while some of the header is missing. *)
Lemma gz_write_header g rem d : gzpos g rem -> rem <> [] -> d <> [] ->
  (forall rem', rem = d ++ rem' -> rem' <> [] -> clean_rem rem' -> exists g', gz_write r g d = (IoOk (blen d), g') /\ gz_inner r g' = gz_inner r g /\ gzpos g' rem') /\
  (forall z, d = rem ++ z -> exists g', gz_write r g d = (IoOk (blen rem), g') /\ gz_inner r g' = gz_inner r g /\ gz_state r g' = GzAfterHeader).
Proof using Hh.
  intros Hg Nr Nd. assert (Elen : forall z, d = rem ++ z -> blen d - blen z = blen rem) by (intros z ->; unfold blen; rewrite app_length; lia).
  destruct Hg as [Es Ex Lb E|Es Ex Ef Er|u Es Ef Eu Er|u Es Ef Hn Hu Er|u Es Ef Hn Hu Er|Es Ef Er|Es Er]; unfold gz_write; rewrite Es.
  - set (all := gz_buf r g ++ d). destruct (Nat.lt_ge_cases (length all) 10) as [Ls|Ll].
    + split.
      * intros rem' -> Ne Hcl. rewrite app_assoc in E. fold all in E. rewrite (start_short all rem' E Ls). eexists. split; [reflexivity|]. split; [reflexivity|]. apply gp_start; [reflexivity|exact Ex|exact Ls|exact E].
      * intros z ->. exfalso. unfold all in Ls. rewrite app_assoc, <- E in Ls. rewrite gh_bytes_eq in Ls. destruct Hh as (H6 & _). unfold blen in H6. rewrite !app_length in Ls. cbn in Ls. lia.
    + set (g2 := fun f => mk_gz r all f (gz_xlen r g) (gz_inner r g) GzXlen). split.
      * intros rem' -> Ne Hcl. rewrite app_assoc in E. fold all in E. destruct (start_long all [] rem') as (p' & _ & Et & ->); [now rewrite app_nil_r|exact Ll|]. rewrite app_nil_r in Et.
        destruct (stage_xlen (g2 (gh_flags h)) eq_refl Ex eq_refl (blen d) p') as [S1 _]. destruct (S1 rem' Et Ne Hcl) as (g' & H1 & H2 & H3). exists g'. auto.
      * intros z Ez. destruct (start_long all z []) as (p' & _ & Et & ->); [rewrite app_nil_r; unfold all; rewrite Ez, app_assoc, <- E; reflexivity|exact Ll|]. rewrite app_nil_r in Et.
        destruct (stage_xlen (g2 (gh_flags h)) eq_refl Ex eq_refl (blen d) p') as [_ S2]. destruct (S2 z (eq_sym Et)) as (g' & H1 & H2 & H3). exists g'. cbn [gz_xlen gz_inner] in *. rewrite <- (Elen z Ez). auto.
  - destruct (stage_xlen g Es Ex Ef (blen d) d) as [S1 S2]. rewrite <- Er in S1, S2. split; [exact S1|]. intros z Ez. rewrite <- (Elen z Ez). exact (S2 z Ez).
  - destruct (stage_extra g u Es Ef Eu (blen d) d) as [S1 S2]. rewrite <- Er in S1, S2. split; [exact S1|]. intros z Ez. rewrite <- (Elen z Ez). exact (S2 z Ez).
  - destruct (stage_name_u g u Es Ef Hn Hu (blen d) d) as [S1 S2]. rewrite <- Er in S1, S2. split; [exact S1|]. intros z Ez. rewrite <- (Elen z Ez). exact (S2 z Ez).
  - destruct (stage_comment_u g u Es Ef Hn Hu (blen d) d) as [S1 S2]. rewrite <- Er in S1, S2. split; [exact S1|]. intros z Ez. rewrite <- (Elen z Ez). exact (S2 z Ez).
  - destruct (stage_crc g Es Ef (blen d) d) as [S1 S2]. rewrite <- Er in S1, S2. split; [exact S1|]. intros z Ez. rewrite <- (Elen z Ez). exact (S2 z Ez).
  - congruence.
Qed.

(** The contract of the gzip writer. *)
Variables (D : bytes -> bytes) (V Fin : bytes -> Prop) (rep : rw_st r -> bytes -> bytes -> Prop).
Hypothesis HD : decodes r RkDeflate D V Fin rep.
Definition gz_rep (w : writer r) (X y b : bytes) : Prop :=
  exists g, w = WGz r g /\
    ((exists rem, rem <> [] /\ gzpos g rem /\ gh_bytes h = X ++ rem /\ raw_rep r D V Fin rep (gz_inner r g) [] y b) \/
     (gz_state r g = GzAfterHeader /\ exists X', X = gh_bytes h ++ X' /\ raw_rep r D V Fin rep (gz_inner r g) X' y b)).
Lemma skipn_short X rem : gh_bytes h = X ++ rem -> skipn (length (gh_bytes h)) X = [].
Proof using Type. intros E. apply skipn_all2. rewrite E, app_length. lia. Qed.
Lemma skipn_hdr X : skipn (length (gh_bytes h)) (gh_bytes h ++ X) = X.
Proof using Type. rewrite skipn_app, skipn_all, Nat.sub_diag. reflexivity. Qed.
Lemma cut_clean X rem : gz_cut_ok h X -> gh_bytes h = X ++ rem -> rem <> [] -> clean_rem rem.
Proof using Hh.
  intros [K1 K2] E Ne. pose proof (f_equal (@length N) E) as L. rewrite app_length in L. split.
  - intros Hc Hl. specialize (K2 Hc). lia.
  - intros b Hb Hl. assert (Hx : gh_extra h <> None) by congruence. specialize (K1 Hx). rewrite gh_bytes_eq in L. unfold tail_xlen in L. rewrite Hb in L. destruct Hh as (H6 & _). unfold blen in H6.
    rewrite !app_length in L. cbn [length] in L. lia.
Qed.
Lemma gz_with_pos g i rem : gzpos g rem -> gzpos (gz_with r g i) rem.
Proof using Type. intros []; [eapply gp_start|eapply gp_xlen|eapply gp_extra|eapply gp_name|eapply gp_comment|eapply gp_crc|eapply gp_done]; eauto. Qed.
Lemma gz_dec : wdec r gz_rep (gz_decoded h D) (gz_valid h V) (gz_may_end h Fin) (gz_cut_ok h).
Proof using Hh HD.
  split.
  - unfold gz_decoded, gz_valid. rewrite skipn_nil. split; [apply HD|]. split; [apply HD|]. exists (gh_bytes h). now left.
  - intros x z. unfold gz_decoded. rewrite skipn_app. apply HD.
  - intros x z [Hv (w & Hw)]. unfold gz_valid. rewrite skipn_app in Hv. split; [eapply (dec_valid _ _ _ _ _ _ HD), Hv|]. destruct Hw as [E0 | E0].
    + exists (z ++ w). left. now rewrite app_assoc.
    + symmetry in E0. destruct (app_split _ _ _ _ E0) as [(v & -> & _) | (v & -> & _)]; exists v; auto.
  - intros w X y b (g & -> & [(rem & _ & _ & E0 & Hr) | (_ & X' & -> & Hr)]); unfold gz_decoded; [rewrite (skipn_short _ _ E0)|rewrite skipn_hdr]; eapply raw_prefix; eauto.
  - intros w X y b d (g & -> & H) Nd [Hv (v & Hw)] Hk. cbn [wr_write]. destruct H as [(rem & Nr & Hg & E0 & Hr) | (Es & X' & -> & Hr)].
    + destruct (gz_write_header g rem d Hg Nr Nd) as [S1 S2]. assert (Hc : (exists rem', rem = d ++ rem' /\ rem' <> []) \/ exists z, d = rem ++ z).
      { destruct Hw as [E2 | E2]; rewrite E0 in E2.
        - rewrite <- app_assoc in E2. apply app_inv_head in E2. destruct v as [|c v]; [right; exists []; rewrite app_nil_r in *; auto|left; exists (c :: v); split; [exact E2|discriminate]].
        - rewrite <- app_assoc in E2. apply app_inv_head in E2. right. now exists v. }
      destruct Hc as [(rem' & Er & Ne) | (z & Ez)].
      * assert (E3 : gh_bytes h = (X ++ d) ++ rem') by (rewrite E0, Er; now rewrite app_assoc).
        destruct (S1 rem' Er Ne (cut_clean _ _ Hk E3 Ne)) as (g' & -> & Hi & Hp). split; [lia|]. exists []. rewrite !app_nil_r.
        assert (Eb : blen d =? 0 = false) by (apply N.eqb_neq; pose proof (blen_pos d Nd); unfold blen; lia). rewrite Eb, firstn_all_blen. exists g'. split; [reflexivity|]. left. exists rem'. rewrite Hi. auto.
      * destruct (S2 z Ez) as (g' & -> & Hi & Hp). assert (Eb : blen rem =? 0 = false) by (apply N.eqb_neq; pose proof (blen_pos rem Nr); unfold blen; lia).
        split; [rewrite Ez; unfold blen; rewrite app_length; lia|]. exists []. rewrite !app_nil_r, Eb. exists g'. split; [reflexivity|]. right. split; [exact Hp|]. exists [].
        rewrite Hi. split; [|exact Hr]. rewrite Ez. unfold blen. rewrite Nnat.Nat2N.id, firstn_app, firstn_all, Nat.sub_diag. cbn [firstn]. rewrite !app_nil_r. exact (eq_sym E0).
    + unfold gz_write. rewrite Es. assert (Hv' : V (X' ++ d)).
      { rewrite <- app_assoc, skipn_hdr in Hv. exact Hv. }
      pose proof (raw_write r RkDeflate D V Fin rep HD (gz_inner r g) X' y b d Hr Nd Hv') as G. destruct (rw_write r (gz_inner r g) d) as [[n|[|]] s']; [| |contradiction].
      * destruct G as (Hn & o & Ho). split; [exact Hn|]. exists o. eexists. split; [reflexivity|]. right. split; [reflexivity|]. eexists. split; [apply eq_sym, app_assoc|exact Ho].
      * destruct G as (o & Ho & Ne). exists o. split; [|exact Ne]. eexists. split; [reflexivity|]. right. split; [reflexivity|]. eexists. split; [reflexivity|exact Ho].
  - intros w X y b (g & -> & H) [Hv _]. cbn [wr_flush]. destruct H as [(rem & Nr & Hg & E0 & Hr) | (Es & X' & -> & Hr)]; unfold gz_decoded.
    + rewrite (skipn_short _ _ E0) in *. pose proof (raw_flush r RkDeflate D V Fin rep HD (gz_inner r g) [] y b Hr Hv) as G.
      destruct (rw_flush r (gz_inner r g)) as [[n|[|]] s']; [| |contradiction]; destruct G as (o & Ho & Ne); exists o; (split; [|exact Ne]); eexists; (split; [reflexivity|]); left; exists rem; (split; [exact Nr|]); (split; [now apply gz_with_pos|auto]).
    + rewrite skipn_hdr in *. pose proof (raw_flush r RkDeflate D V Fin rep HD (gz_inner r g) X' y b Hr Hv) as G.
      destruct (rw_flush r (gz_inner r g)) as [[n|[|]] s']; [| |contradiction]; destruct G as (o & Ho & Ne); exists o; (split; [|exact Ne]); eexists; (split; [reflexivity|]); right; (split; [exact Es|]); exists X'; auto.
  - intros w X y b (g & -> & [(rem & _ & _ & _ & Hr) | (_ & X' & _ & Hr)]); destruct Hr as (x & _ & Hb & _); exact Hb.
  - intros w X y b (g & -> & [(rem & Nr & Hg & E0 & Hr) | (Es & X' & E0 & Hr)]); eexists; (split; [reflexivity|]); [left; exists rem; (split; [exact Nr|]); (split; [now apply gz_with_pos|]); (split; [exact E0|])|right; (split; [exact Es|]); exists X'; (split; [exact E0|])]; eapply raw_clear; eauto.
  - intros w X (g & -> & H) He. unfold gz_may_end, gz_decoded in *. cbn [wr_finish]. destruct H as [(rem & Nr & Hg & E0 & Hr) | (Es & X' & -> & Hr)].
    + rewrite (skipn_short _ _ E0) in *. eapply raw_finish; eauto.
    + rewrite skipn_hdr in *. eapply raw_finish; eauto.
Qed.
Lemma gz_rep_new : gz_rep (WGz r (gz_new r)) [] [] [].
Proof using Hh HD.
  exists (gz_new r). split; [reflexivity|]. left. exists (gh_bytes h). split; [rewrite gh_bytes_eq; discriminate|]. split; [apply gp_start; [reflexivity|reflexivity|cbn; lia|reflexivity]|]. split; [reflexivity|]. eapply raw_new; eauto.
Qed.
End Gz.

(** * Chains of decoders that work *)
Section Chains.
Variable r : raw.
Variable lz : bool.
Lemma wdec_weaken W D V E (K K' : bytes -> Prop) : (forall x, K' x -> K x) -> wdec r W D V E K -> wdec r W D V E K'.
Proof using Type. intros H HW. destruct HW as [h0 h1 h2 h3 h4 h5 h6 h7 h8]. split; try assumption. intros w X y b d Hw Nd Hv Hk. apply h4; auto. Qed.
Lemma layer_writer ce D V E : layer_decodes r lz ce D V E ->
  exists W w, wdec r W D V E (fun _ => True) /\ W w [] [] [] /\ new_writer r lz ce = Some (w, false).
Proof using Type.
  intros [D0 V0 E0 rep H|D0 V0 E0 rep H|D0 V0 E0 rep El H|D0 V0 E0 rep h Hg [Hp1 Hp2] H].
  - eexists _, (WRaw r (rw_new r RkDeflate)). split; [eapply raw_dec, H|]. split; [|reflexivity]. eexists. split; [reflexivity|]. eapply raw_new, H.
  - eexists _, (WRaw r (rw_new r RkZlib)). split; [eapply raw_dec, H|]. split; [|reflexivity]. eexists. split; [reflexivity|]. eapply raw_new, H.
  - eexists _, (WRaw r (rw_new r RkLzma)). split; [eapply raw_dec, H|]. split; [|cbn; now rewrite El]. eexists. split; [reflexivity|]. eapply raw_new, H.
  - exists (gz_rep r h D0 V0 E0 rep), (WGz r (gz_new r)). split; [|split; [now apply gz_rep_new|reflexivity]].
    eapply wdec_weaken; [|now apply gz_dec]. intros x _. split; congruence.
Qed.
Lemma off_writer : lz = false -> new_writer r lz CeLzma = Some (WNull r, true).
Proof using Type. intros E. cbn. now rewrite E. Qed.
Lemma chain_dec ces D V E : layers_decode r lz ces D V E -> exists C, cdec r lz C D V E (fun _ => True) /\ C (new_chain r lz ces) [] [].
Proof using Type.
  induction 1 as [|ce ces D V E D' V' E' Hl Hs (C & HC & H0)|ces D V E El Hs (C & HC & H0)].
  - eexists. split; [apply sink_dec|]. cbn. auto.
  - destruct (layer_writer ce D V E Hl) as (W & w & HW & Hw & Ew). exists (on_layer r W C). split; [now apply layer_dec|].
    cbn [new_chain fold_right]. unfold prepend at 1. rewrite Ew. fold (new_chain r lz ces). eexists _, _, w, [], [], []. repeat split; try reflexivity; assumption.
  - exists (on_off r C). split; [now apply off_dec|]. cbn [new_chain fold_right]. unfold prepend at 1. rewrite (off_writer El). fold (new_chain r lz ces). eexists _, _. repeat split; try reflexivity; assumption.
Qed.
Lemma chain_dry ces D V E : layers_decode r lz ces D V E -> dry r (new_chain r lz ces).
Proof using Type.
  induction 1 as [|ce ces D V E D' V' E' Hl Hs IH|ces D V E El Hs IH]; cbn [new_chain fold_right]; [constructor| |]; unfold prepend at 1.
  - destruct (layer_writer ce D V E Hl) as (W & w & HW & Hw & Ew). rewrite Ew. constructor; [exact IH|]. intros w0 [= <-]. destruct (wd_start _ _ _ _ _ _ HW) as [S1 S2].
    eapply wdec_dry; [exact HW|exact S2|]. rewrite S1. exact Hw.
  - rewrite (off_writer El). constructor; [exact IH|]. intros w0 [= <-]. exists (fun w => w = WNull r). split; [reflexivity|]. intros w ->. exists (WNull r). auto.
Qed.
Lemma chain_delivers ces D V E cs : layers_decode r lz ces D V E -> V (concat cs) -> cs <> [] ->
  exists f0, forall f, (f0 <= f)%nat -> exists l, delivered r lz f (new_chain r lz ces) cs = Some (map Some l) /\ concat l = D (concat cs).
Proof using Type.
  intros Hd Hv Ne. destruct (chain_dec ces D V E Hd) as (C & HC & H0). destruct (delivered_dec r lz C D V E _ HC cs _ [] [] H0 Hv) as (f0 & o & c' & _ & Eo & _ & _ & Hf); [auto|].
  exists f0. intros f Lf. destruct (Hf f Lf) as (_ & l & El & Ej). destruct (data_map l (data_delivered r lz f cs _ l El)) as (bs & -> & Eb). exists bs. split; [exact El|]. rewrite <- Eb, Ej. exact (Eo Ne).
Qed.
Lemma chain_whole ces D V E cs : layers_decode r lz ces D V E -> V (concat cs) -> E (concat cs) ->
  exists f0, forall f, (f0 <= f)%nat -> exists l, delivered_whole r lz f (new_chain r lz ces) cs = Some (map Some l ++ [None]) /\ concat l = D (concat cs).
Proof using Type.
  intros Hd Hv He. destruct (chain_dec ces D V E Hd) as (C & HC & H0). destruct (delivered_dec r lz C D V E _ HC cs _ [] [] H0 Hv) as (f1 & o & c' & Hc' & _ & _ & _ & Hf); [auto|].
  destruct (cd_finish _ _ _ _ _ _ _ HC c' _ _ Hc' Hv He) as (f2 & o2 & E2 & Hf2). exists (Nat.max f1 f2). intros f Lf. destruct (Hf f ltac:(lia)) as (Ea & l & El & Ej).
  destruct (Hf2 f ltac:(lia)) as (R2 & l2 & C2 & N2 & J2). rewrite (whole_after r lz f cs _ c' l Ea El R2), C2.
  destruct (data_map l (data_delivered r lz f cs _ l El)) as (bs & -> & Eb). destruct (data_map l2 N2) as (bs2 & -> & Eb2). exists (bs ++ bs2). split; [now rewrite map_app, app_assoc|].
  rewrite concat_app, <- Eb, <- Eb2, Ej, J2. exact E2.
Qed.
Lemma gzip_delivers h D V E rep cs z : good_gzhead h -> decodes r RkDeflate D V E rep -> concat cs = gh_bytes h ++ z -> V z ->
  (forall a b, cs = a ++ b -> gz_cut_ok h (concat a)) ->
  exists f0, forall f, (f0 <= f)%nat -> exists l, delivered r lz f (new_chain r lz [CeGzip]) cs = Some (map Some l) /\ concat l = D z.
Proof using Type.
  intros Hg Hd E1 Hv Hk. pose proof (layer_dec r lz _ _ _ _ _ (gz_dec r h Hg D V E rep Hd) _ _ _ _ (sink_dec r lz)) as HC.
  assert (H0 : on_layer r (gz_rep r h D V E rep) (fun c X Y => c = Sink r /\ X = Y) (new_chain r lz [CeGzip]) [] []).
  { eexists _, _, (WGz r (gz_new r)), [], [], []. repeat split; try reflexivity. now apply gz_rep_new. }
  destruct (delivered_dec r lz _ _ _ _ _ HC cs _ [] [] H0) as (f0 & o & c' & _ & Eo & _ & _ & Hf).
  { cbn [app]. rewrite E1. split; [|exact I]. unfold gz_valid. rewrite skipn_hdr. split; [exact Hv|]. exists z. now right. }
  { exact Hk. }
  exists f0. intros f Lf. destruct (Hf f Lf) as (_ & l & El & Ej). destruct (data_map l (data_delivered r lz f cs _ l El)) as (bs & -> & Eb). exists bs. split; [exact El|]. rewrite <- Eb, Ej. cbn [app] in Eo.
  rewrite Eo; [|intros ->; rewrite gh_bytes_eq in E1; discriminate]. unfold gz_decoded. now rewrite E1, skipn_hdr.
Qed.

(** * When the time is up *)
Lemma fed_chain f : forall cs dc c, chain_of r lz f dc = Some c -> chain_of r lz f (fed cs dc) = after r lz f c cs.
Proof using Type.
  induction cs as [|b cs IH]; intros dc c Hc; [exact Hc|]. cbn [after]. assert (E : fed (b :: cs) dc = fed cs (DoFeed b false :: dc)) by (unfold fed; cbn [map rev]; now rewrite <- app_assoc). rewrite E.
  destruct (result (decompress r lz f c b)) as [[[u|] c1]|] eqn:Er.
  - apply IH. cbn [chain_of]. rewrite Hc, all_accept_result, Er. reflexivity.
  - assert (En : chain_of r lz f (DoFeed b false :: dc) = None) by (cbn [chain_of]; rewrite Hc, all_accept_result, Er; reflexivity). clear E IH. revert En. generalize (DoFeed b false :: dc). clear.
    induction cs as [|b cs IH]; intros dc En; [exact En|]. assert (E : fed (b :: cs) dc = fed cs (DoFeed b false :: dc)) by (unfold fed; cbn [map rev]; now rewrite <- app_assoc). rewrite E. apply IH. cbn [chain_of]. now rewrite En.
  - assert (En : chain_of r lz f (DoFeed b false :: dc) = None) by (cbn [chain_of]; rewrite Hc, all_accept_result, Er; reflexivity). clear E IH. revert En. generalize (DoFeed b false :: dc). clear.
    induction cs as [|b cs IH]; intros dc En; [exact En|]. assert (E : fed (b :: cs) dc = fed cs (DoFeed b false :: dc)) by (unfold fed; cbn [map rev]; now rewrite <- app_assoc). rewrite E. apply IH. cbn [chain_of]. now rewrite En.
Qed.
Lemma fresh_chain f ces : chain_of r lz f (fresh_decomp ces) = Some (new_chain r lz ces).
Proof using Type. induction ces as [|ce ces IH]; [reflexivity|]. cbn [fresh_decomp map chain_of]. fold (fresh_decomp ces). rewrite IH. reflexivity. Qed.
Lemma slow_passes ces D V E cs b : layers_decode r lz ces D V E -> V (concat cs ++ b) ->
  exists f0, forall f ds, (f0 <= f)%nat -> ~ In [] ds ->
    exists c, chain_of r lz f (DoFeed b true :: fed cs (fresh_decomp ces)) = Some c /\ delivered r lz f c ds = Some (map Some ds).
Proof using Type.
  intros Hd Hv. destruct (chain_dec ces D V E Hd) as (C & HC & H0). destruct (delivered_dec r lz C D V E _ HC cs _ [] [] H0) as (f1 & o & c1 & Hc1 & _ & _ & _ & Hf); [eapply (cd_valid _ _ _ _ _ _ _ HC), Hv|auto|].
  destruct (decompress_dec r lz C D V E _ HC c1 _ _ b Hc1 Hv I) as (f2 & o2 & c2 & _ & _ & Hdry & Hf2). exists (Nat.max (Nat.max f1 f2) (depth r c2 + 4)). intros f ds Lf Nd.
  destruct (Hf f ltac:(lia)) as (Ea & _). destruct (Hf2 f ltac:(lia)) as [R _]. exists (set_passthrough r true c2). split.
  - cbn [chain_of]. rewrite (fed_chain f cs _ _ (fresh_chain f ces)), Ea, all_accept_result, R. reflexivity.
  - apply pass_delivered; [exact Nd|now apply dry_pass|now apply dry_all_pass|rewrite pass_depth; lia].
Qed.

(** * Data no decoder wants *)
(** The writers of the encodings reject [d]. *)
Definition refuses (ce : cenc) (d : bytes) : Prop :=
  exists w, new_writer r lz ce = Some (w, false) /\ fst (wr_write r w d) = IoErr IoOther.
Lemma refused_step f ce d n l i w : new_writer r lz ce = Some (w, false) -> fst (wr_write r w d) = IoErr IoOther -> l = mk_layer r (Some w) ce false n ->
  c_write r lz (S f) (Layer r l (Some i)) d =
    match restart r lz (mk_layer r None ce false n) with
    | Some l => c_write r lz f (Layer r l (Some i)) d
    | None => dbind (c_write r lz f (set_passthrough r true i) d) (fun '(x, i) =>
                DmRet (x, match x with
                          | IoOk _ => Layer r (mk_layer r None ce true n) (Some i)
                          | IoErr _ => Layer r (mk_layer r None ce false n) (Some (set_passthrough r false i))
                          end))
    end.
Proof using Type. intros E1 E2 ->. rewrite c_write_S. cbn [l_pass l_writer]. destruct (wr_write r w d) as [x w']. cbn in E2. subst x. reflexivity. Qed.
Definition next_enc (ce : cenc) : cenc := match ce with CeGzip => CeDeflate | CeDeflate => CeZlib | CeZlib => CeGzip | CeLzma => CeDeflate | c => c end.
Lemma restart_refuses ce n d : refuses ce d -> refuses (next_enc ce) d -> n < 3 ->
  exists w, restart r lz (mk_layer r None ce false n) = Some (mk_layer r (Some w) (next_enc ce) false (n + 1)) /\ new_writer r lz (next_enc ce) = Some (w, false) /\ fst (wr_write r w d) = IoErr IoOther.
Proof using Type.
  intros (w0 & E0 & _) (w & E & Hw) Hn. exists w. split; [|auto]. unfold restart. cbn [l_restarts l_enc l_pass]. rewrite (proj2 (N.ltb_lt _ _) Hn).
  destruct ce; cbn [next_enc] in *; try discriminate; rewrite E; reflexivity.
Qed.
Lemma refused_passes f ce d w i : d <> [] -> (depth r i + 10 <= f)%nat -> new_writer r lz ce = Some (w, false) -> dry r i ->
  refuses ce d -> refuses (next_enc ce) d -> refuses (next_enc (next_enc ce)) d -> refuses (next_enc (next_enc (next_enc ce))) d ->
  exists c, dry r c /\ all_pass r c /\ depth r c = S (depth r i) /\
    result (decompress r lz f (Layer r (mk_layer r (Some w) ce false 0) (Some i)) d) = Some (IoOk tt, c) /\
    calls (decompress r lz f (Layer r (mk_layer r (Some w) ce false 0) (Some i)) d) = [Some d].
Proof using Type.
  intros Nd Hf Ew Hd R0 R1 R2 R3. set (ip := set_passthrough r true i). set (c1 := Layer r (mk_layer r None (next_enc (next_enc (next_enc ce))) true 3) (Some ip)).
  assert (Hc1 : dry r c1) by (constructor; [now apply dry_pass|intros w0; discriminate]). assert (Hp : all_pass r ip) by now apply dry_all_pass.
  assert (Hq : depth r ip = depth r i) by apply pass_depth.
  destruct (dry_flush r lz c1 Hc1) as (c2 & D1 & D2 & D3 & D4). exists c2. split; [exact D1|]. split; [apply D3; split; [reflexivity|exact Hp]|]. split; [rewrite D2; cbn [depth c1]; now rewrite Hq|].
  destruct f as [|[|[|[|[|[|[|f]]]]]]]; try lia. unfold decompress. rewrite calls_bind, result_bind, write_all_S.
  assert (is_nil d = false) as -> by (destruct d; [congruence|reflexivity]). rewrite !calls_bind, !result_bind.
  destruct (restart_refuses ce 0 d R0 R1) as (w1 & Q1 & N1 & F1); [lia|]. destruct (restart_refuses _ 1 d R1 R2) as (w2 & Q2 & N2 & F2); [lia|].
  destruct (restart_refuses _ 2 d R2 R3) as (w3 & Q3 & N3 & F3); [lia|]. change (0 + 1) with 1 in Q1. change (1 + 1) with 2 in Q2. change (2 + 1) with 3 in Q3. destruct R0 as (w0 & E0 & F0). rewrite Ew in E0. injection E0 as <-.
  rewrite (refused_step _ _ d _ _ _ _ Ew F0 eq_refl), Q1. rewrite (refused_step _ _ d _ _ _ _ N1 F1 eq_refl), Q2. rewrite (refused_step _ _ d _ _ _ _ N2 F2 eq_refl), Q3.
  rewrite (refused_step _ _ d _ _ _ _ N3 F3 eq_refl), (eq_refl : restart r lz (mk_layer r None (next_enc (next_enc (next_enc ce))) false 3) = None). rewrite !calls_bind, !result_bind. fold ip.
  destruct (pass_write r lz ip d (S (S f)) Hp ltac:(lia)) as [-> ->]. cbn [calls result app]. fold c1.
  assert (blen d =? 0 = false) as -> by (apply N.eqb_neq; unfold blen; pose proof (blen_pos d Nd); lia). rewrite write_all_S.
  assert (skipn (N.to_nat (blen d)) d = []) as -> by (apply skipn_all2; unfold blen; lia). cbn [is_nil calls result app].
  destruct (D4 (S (S (S (S (S (S (S f))))))) ltac:(cbn [depth c1] in *; lia)) as [-> ->]. cbn [app]. auto.
Qed.
End Chains.
