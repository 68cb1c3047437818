(** Path normalisation and URI splitting (C18, C20). *)
From Verif Require Import Base Spec ModelUtil ModelBstr ModelParsers ModelUrl ModelUri ProofsBase ProofsBstr ProofsParsers ProofsUrl.

(** ** C18 *)
Definition isslash := fun c => c =? 47.
Definition good_seg (s : bytes) : Prop := s <> [46] /\ s <> [46; 46] /\ ~ In 47 s.
Lemma norm_step_good st s : Forall good_seg st -> ~ In 47 s -> Forall good_seg (norm_step st s).
Proof.
  intros H Hs. unfold norm_step. destruct (bytes_eqb s dot) eqn:E1; [assumption|]. destruct (bytes_eqb s dotdot) eqn:E2.
  - destruct H as [|x [|? ?] Hx H]; cbn [tl]; [constructor| |].
    + destruct x; [constructor; assumption|constructor].
    + destruct x; assumption.
  - apply bytes_eqb_neq in E1, E2. constructor; [|assumption]. split; [exact E1|]. split; [exact E2|exact Hs].
Qed.
Lemma norm_fold_good segs : forall st, Forall good_seg st -> Forall (fun s => ~ In 47 s) segs -> Forall good_seg (fold_left norm_step segs st).
Proof. induction segs as [|s segs IH]; intros st H F; cbn [fold_left]; [assumption|]. inversion F; subst. apply IH; [|assumption]. now apply norm_step_good. Qed.
Lemma split_segs s : Forall (fun x => ~ In 47 x) (split_on isslash s).
Proof. pose proof (proj2 (pieces_split_on 47 s _) eq_refl) as (_ & _ & F). exact F. Qed.
Lemma norm_fold_keep segs : forall st, Forall good_seg segs -> fold_left norm_step segs st = rev segs ++ st.
Proof.
  induction segs as [|s segs IH]; intros st F; cbn [fold_left rev app]; [reflexivity|]. inversion F as [|? ? (H1 & H2 & _) F']; subst.
  rewrite IH by assumption. rewrite <- app_assoc. cbn [app]. f_equal. unfold norm_step.
  apply bytes_eqb_neq in H1, H2. unfold dot, dotdot. now rewrite H1, H2.
Qed.
Lemma split_join segs : segs <> [] -> Forall (fun x => ~ In 47 x) segs -> split_on isslash (join [47] segs) = segs.
Proof. intros Hne F. symmetry. apply (proj1 (pieces_split_on 47 _ _)). repeat split; assumption. Qed.
Definition norm_stack (s : bytes) : list bytes := fold_left norm_step (split_on isslash s) [].
Lemma norm_stack_good s : Forall good_seg (norm_stack s).
Proof. apply norm_fold_good; [constructor|apply split_segs]. Qed.
Lemma rev_nil {A} (l : list A) : rev l = [] -> l = [].
Proof. intro H. rewrite <- (rev_involutive l), H. reflexivity. Qed.
Lemma Forall_imp3 l : Forall good_seg l -> Forall (fun x => ~ In 47 x) l.
Proof. apply Forall_impl. now intros a (_ & _ & H). Qed.
Lemma normalize_pieces s segs : pieces 47 (normalize_uri_path s) segs ->
  Forall (fun x => x <> [46] /\ x <> [46; 46]) segs.
Proof.
  intro H. apply pieces_split_on in H. subst segs. unfold normalize_uri_path. fold isslash. fold (norm_stack s).
  pose proof (norm_stack_good s) as G. destruct (norm_stack s) as [|x st] eqn:E.
  - cbn. constructor; [split; discriminate|constructor].
  - rewrite split_join.
    + apply Forall_rev. eapply Forall_impl; [|exact G]. intros a (? & ? & _). auto.
    + intro K. apply rev_nil in K. discriminate.
    + apply Forall_rev. now apply Forall_imp3.
Qed.
Lemma normalize_idempotent s : normalize_uri_path (normalize_uri_path s) = normalize_uri_path s.
Proof.
  unfold normalize_uri_path. fold isslash. fold (norm_stack s). pose proof (norm_stack_good s) as G.
  destruct (norm_stack s) as [|x st] eqn:E; [reflexivity|]. rewrite split_join.
  - rewrite norm_fold_keep by now apply Forall_rev. now rewrite app_nil_r, rev_involutive.
  - intro K. apply rev_nil in K. discriminate.
  - apply Forall_rev. now apply Forall_imp3.
Qed.
(** Lengths: [wt st] is the length of the joined stack plus one, 0 for an empty stack. *)
Fixpoint wt (st : list bytes) : nat := match st with [] => 0 | s :: st' => S (length s) + wt st' end.
Lemma wt_app a b : wt (a ++ b) = (wt a + wt b)%nat.
Proof. induction a as [|x a IH]; cbn [wt app]; [reflexivity|]. lia. Qed.
Lemma wt_rev a : wt (rev a) = wt a.
Proof. induction a as [|x a IH]; cbn [wt rev]; [reflexivity|]. rewrite wt_app. cbn [wt]. lia. Qed.
Lemma wt_join segs : length (join [47] segs) = (wt segs - 1)%nat.
Proof.
  induction segs as [|s segs IH]; [reflexivity|]. destruct segs as [|s2 segs]; [cbn; lia|].
  change (join [47] (s :: s2 :: segs)) with (s ++ [47] ++ join [47] (s2 :: segs)). rewrite !app_length, IH. cbn [wt length]. lia.
Qed.
Lemma norm_fold_wt segs : forall st, (wt (fold_left norm_step segs st) <= wt st + wt segs)%nat.
Proof.
  induction segs as [|s segs IH]; intro st; cbn [fold_left wt]; [lia|]. specialize (IH (norm_step st s)).
  assert (wt (norm_step st s) <= wt st + S (length s))%nat.
  { unfold norm_step. destruct (bytes_eqb s dot); [lia|]. destruct (bytes_eqb s dotdot); [|cbn [wt]; lia].
    destruct st as [|[|y x] [|? ?]]; cbn [tl wt]; lia. }
  lia.
Qed.
Lemma normalize_length s : (length (normalize_uri_path s) <= length s)%nat.
Proof.
  unfold normalize_uri_path. fold isslash. rewrite wt_join, wt_rev.
  pose proof (norm_fold_wt (split_on isslash s) []) as H. cbn [wt] in H.
  pose proof (wt_join (split_on isslash s)) as K. unfold isslash in K at 1. rewrite join_split_on in K. lia.
Qed.
Lemma norm_fold_walk segs : forall st, fold_left norm_step segs (st ++ [[]]) = walk st segs ++ [[]].
Proof.
  induction segs as [|s segs IH]; intro st; cbn [fold_left walk]; [reflexivity|]. unfold norm_step at 2.
  change dot with [46]. change dotdot with [46; 46].
  destruct (bytes_eqb s [46]); [apply IH|]. destruct (bytes_eqb s [46; 46]).
  - destruct st as [|x st]; cbn [app tl]; [apply (IH [])|]. rewrite <- IH.
    destruct x; [|reflexivity]. now destruct (st ++ [[]]) eqn:E; [destruct st|].
  - apply (IH (s :: st)).
Qed.
Lemma join_slash segs : join [47] ([] :: segs) = concat (map (fun s => 47 :: s) segs).
Proof.
  destruct segs as [|s segs]; [reflexivity|]. change (join [47] ([] :: s :: segs)) with (47 :: join [47] (s :: segs)).
  revert s. induction segs as [|s2 segs IH]; intro s.
  - cbn. now rewrite app_nil_r.
  - change (join [47] (s :: s2 :: segs)) with (s ++ [47] ++ join [47] (s2 :: segs)).
    change (concat (map (fun s => 47 :: s) (s :: s2 :: segs))) with ((47 :: s) ++ concat (map (fun s => 47 :: s) (s2 :: segs))).
    rewrite <- IH. cbn [app]. reflexivity.
Qed.
Lemma normalize_absolute r segs : pieces 47 r segs ->
  normalize_uri_path (47 :: r) = concat (map (fun s => 47 :: s) (rev (walk [] segs))).
Proof.
  intro H. apply pieces_split_on in H. unfold normalize_uri_path. cbn [split_on]. change (47 =? 47) with true. cbv iota. rewrite <- H.
  cbn [fold_left]. change (norm_step [] []) with ([] ++ [[]] : list bytes). rewrite norm_fold_walk, rev_app_distr. apply join_slash.
Qed.
Lemma normalize_stays_absolute r : normalize_uri_path (47 :: r) = [] \/ exists r', normalize_uri_path (47 :: r) = 47 :: r'.
Proof.
  rewrite (normalize_absolute r _ (proj2 (pieces_split_on 47 r _) eq_refl)). destruct (rev _) as [|s ss]; cbn; [now left|right; eauto].
Qed.

(** ** C20 *)
Lemma no_bytes_negb set t : no_bytes set t -> Forall (fun c => negb (memb c set) = true) t.
Proof. apply Forall_impl. intros a H. destruct (memb a set) eqn:E; [|reflexivity]. apply memb_In in E. contradiction. Qed.
Lemma is_not_c_app set v rest : v <> [] -> no_bytes set v -> (forall x r, rest = x :: r -> In x set) -> is_not_c set (v ++ rest) = POk rest v.
Proof.
  intros Hne Hv Hr. unfold is_not_c, take_while1_c. rewrite span_app.
  - destruct v; [easy|reflexivity].
  - now apply no_bytes_negb.
  - intros x b' E. specialize (Hr x b' E). apply memb_In in Hr. now rewrite Hr.
Qed.
Lemma is_not_c_fail set rest : (forall x r, rest = x :: r -> In x set) -> is_not_c set rest = PErr.
Proof.
  intro H. unfold is_not_c, take_while1_c. destruct rest as [|x r]; [reflexivity|]. cbn [span].
  specialize (H x r eq_refl). apply memb_In in H. now rewrite H.
Qed.
Lemma tag_c_byte_fail b i : not_starting b i -> tag_c [b] i = PErr.
Proof.
  intro H. unfold tag_c. destruct i as [|x i]; [reflexivity|]. cbn [strip_prefix]. destruct (b =? x) eqn:E; [|reflexivity].
  apply N.eqb_eq in E. subst. now elim (H i).
Qed.
Lemma take_until_byte c a r : ~ In c a -> take_until_c [c] (a ++ c :: r) = POk (c :: r) a.
Proof. intro H. unfold take_until_c. now rewrite find_sub_byte. Qed.
Lemma take_until_byte_none c a : ~ In c a -> take_until_c [c] a = PErr.
Proof. intro H. unfold take_until_c. now rewrite find_sub_byte_none. Qed.
Lemma no_bytes_not_in set t c : no_bytes set t -> In c set -> ~ In c t.
Proof. intros H I J. unfold no_bytes in H. rewrite Forall_forall in H. exact (H c J I). Qed.
Lemma many_sp_none i : not_starting 32 i -> many_sp i = POk i [].
Proof. intro H. unfold many_sp, take_while_c. destruct i as [|x i]; [reflexivity|]. cbn [span]. destruct (x =? 32) eqn:E; [|reflexivity]. apply N.eqb_eq in E. subst. now elim (H i). Qed.
Lemma not_starting_app b a r : a <> [] -> not_starting b a -> not_starting b (a ++ r).
Proof. intros Hne H r' E. destruct a as [|x a]; [easy|]. cbn in E. injection E as -> _. now elim (H a). Qed.

Lemma peek_not_slash i : not_starting 47 i -> p_peek (p_not (tag_c (s2b "/"))) i = POk i tt.
Proof. intro H. unfold p_peek, p_not. change (s2b "/") with [47]. now rewrite tag_c_byte_fail. Qed.
Lemma scheme_ok s rest : no_bytes (s2b ":") s -> not_starting 47 s -> scheme (s ++ 58 :: rest) = POk rest s.
Proof.
  intros Hs H. unfold scheme, pbind. rewrite peek_not_slash.
  - change (s2b ":") with [58]. rewrite take_until_byte by (apply (no_bytes_not_in _ _ _ Hs); now left).
    change (58 :: rest) with ([58] ++ rest). now rewrite tag_c_app.
  - destruct s as [|x s]; [intros r E; discriminate|]. now apply not_starting_app.
Qed.

Definition tail_start (rest : bytes) : Prop := forall x r, rest = x :: r -> In x (s2b "/?#").
Lemma tail_text_start c : good_tail c -> tail_start (tail_text c).
Proof.
  intros (Hp & Hq) x r E. unfold tail_text in E. destruct (up_path c) as [p|].
  - destruct (Hp p eq_refl) as ((r' & ->) & _). cbn in E. injection E as <- _. cbn. auto.
  - cbn [opt_text app] in E. destruct (up_query c) as [q|]; [cbn in E; injection E as <- _; cbn; auto|].
    destruct (up_frag c) as [f|]; [cbn in E; injection E as <- _; cbn; auto|discriminate].
Qed.
Lemma port_ok p rest : p <> [] -> no_bytes (s2b "/?# ") p -> tail_start rest -> port (58 :: p ++ rest) = POk rest p.
Proof.
  intros Hne Hp Hr. unfold port, pbind. change (58 :: p ++ rest) with ([58] ++ (p ++ rest)). change (s2b ":") with [58]. rewrite tag_c_app.
  assert (not_starting 32 p).
  { intros r ->. inversion Hp; subst. apply H1. cbn. auto. }
  rewrite many_sp_none by now apply not_starting_app.
  rewrite is_not_c_app; [|assumption| |exact Hr].
  2: { eapply Forall_impl; [|exact Hp]. intros a H0 K. apply H0. cbn in K |- *. intuition. }
  rewrite many_sp_none.
  2: { intros r ->. specialize (Hr 32 r eq_refl). cbn in Hr. intuition discriminate. }
  unfold pret. rewrite <- (app_nil_r p) at 1. rewrite is_not_c_app; [reflexivity|assumption| |intros; discriminate].
  eapply Forall_impl; [|exact Hp]. intros a H0 K. apply H0. cbn in K |- *. intuition.
Qed.
Lemma port_none rest : tail_start rest -> port rest = PErr.
Proof.
  intro Hr. unfold port, pbind. change (s2b ":") with [58]. rewrite tag_c_byte_fail; [reflexivity|].
  intros r ->. specialize (Hr 58 r eq_refl). cbn in Hr. intuition discriminate.
Qed.
Lemma host_first h : plain_host h \/ literal_host h -> h <> [] /\ not_starting 47 h.
Proof.
  intros [(Hne & Hh & _)|(a & -> & _)].
  - split; [assumption|]. intros r ->. inversion Hh; subst. apply H1. cbn. auto.
  - split; [discriminate|]. intros r E. discriminate.
Qed.
Lemma hostname_ok h rest : plain_host h \/ literal_host h ->
  (forall x r, rest = x :: r -> In x (s2b "/?#:")) -> hostname (h ++ rest) = POk rest h.
Proof.
  intros Hh Hr. destruct (host_first h Hh) as (Hne & Hns).
  assert (T : tag_c (s2b "//") (h ++ rest) = PErr).
  { unfold tag_c. destruct h as [|x h]; [easy|]. cbn [s2b app strip_prefix]. destruct (N_of_ascii "/" =? x) eqn:E; [|reflexivity].
    apply N.eqb_eq in E. subst x. now elim (Hns h). }
  unfold hostname, pbind at 1, p_opt. rewrite T. unfold pbind. rewrite peek_not_slash by now apply not_starting_app.
  destruct Hh as [(_ & Hb & H91 & H32 & HE)|(a & -> & Ha & Hb)].
  - rewrite many_sp_none by now apply not_starting_app. unfold p_alt, ipv6, pbind. change (s2b "[") with [91].
    rewrite tag_c_byte_fail by now apply not_starting_app. rewrite is_not_c_app by assumption. unfold pret. f_equal.
    apply (drop_while_end_unique _ h h []); [now rewrite app_nil_r|constructor|]. intros x a' E. destruct (x =? 32) eqn:X; [|reflexivity].
    apply N.eqb_eq in X. subst. now elim (HE a').
  - rewrite many_sp_none by (intros r E; discriminate). unfold p_alt, ipv6, pbind. change (s2b "[") with [91]. change (s2b "]") with [93].
    rewrite <- !app_assoc, tag_c_app. cbn [app]. rewrite (is_not_c_app _ a (93 :: rest)); [|assumption|assumption|].
    2: { intros x r E. injection E as <- _. cbn. auto. }
    change (93 :: rest) with ([93] ++ rest). unfold p_opt. rewrite tag_c_app. unfold pret.
    assert (F : firstn (length (91 :: a ++ [93] ++ rest) - length rest) (91 :: a ++ [93] ++ rest) = 91 :: a ++ [93]).
    { replace (91 :: a ++ [93] ++ rest) with ((91 :: a ++ [93]) ++ rest) by (cbn; now rewrite <- app_assoc).
      rewrite app_length. rewrite Nat.add_sub.
      rewrite firstn_app, Nat.sub_diag, firstn_all. cbn. now rewrite app_nil_r. }
    rewrite F. f_equal. apply (drop_while_end_unique _ _ _ []); [now rewrite app_nil_r|constructor|].
    intros x a' E. change (91 :: a ++ [93]) with ((91 :: a) ++ [93]) in E. apply app_inj_tail in E as [_ <-]. reflexivity.
Qed.
(** The same after "//", which the parser skips. *)
Lemma hostname_skip h rest : plain_host h \/ literal_host h ->
  (forall x r, rest = x :: r -> In x (s2b "/?#:")) -> hostname (s2b "//" ++ h ++ rest) = POk rest h.
Proof.
  intros Hh Hr. rewrite <- (hostname_ok h rest Hh Hr). unfold hostname, pbind at 1 5, p_opt. rewrite tag_c_app.
  destruct (host_first h Hh) as (Hne & Hns).
  assert (T : tag_c (s2b "//") (h ++ rest) = PErr).
  { unfold tag_c. destruct h as [|x h]; [easy|]. cbn [s2b app strip_prefix]. destruct (N_of_ascii "/" =? x) eqn:E; [|reflexivity].
    apply N.eqb_eq in E. subst x. now elim (Hns h). }
  now rewrite T.
Qed.
Lemma tail_ok c : good_tail c -> (exists r, path (tail_text c) = r) /\
  (plet p := p_opt path in plet q := p_opt query in plet f := p_opt fragment in pret (p, q, f)) (tail_text c) = POk [] (up_path c, up_query c, up_frag c).
Proof.
  intros (Hp & Hq). split; [eauto|]. unfold tail_text.
  assert (F : forall x : option bytes * option bytes, (plet f := p_opt fragment in pret (fst x, snd x, f)) (opt_text (s2b "#") (up_frag c)) = POk [] (fst x, snd x, up_frag c)).
  { intro x. unfold pbind, p_opt, fragment. destruct (up_frag c) as [f|]; cbn [opt_text]; [now rewrite tag_c_app|reflexivity]. }
  assert (Q : forall p : option bytes, (plet q := p_opt query in plet f := p_opt fragment in pret (p, q, f)) (opt_text (s2b "?") (up_query c) ++ opt_text (s2b "#") (up_frag c)) = POk [] (p, up_query c, up_frag c)).
  { intro p. unfold pbind at 1, p_opt at 1, query, pbind at 1. destruct (up_query c) as [q|].
    - destruct (Hq q eq_refl) as (Hne & Hb). cbn [opt_text]. rewrite <- app_assoc, tag_c_app.
      rewrite is_not_c_app; [exact (F (p, Some q))|assumption|assumption|].
      intros x r E. destruct (up_frag c); [|discriminate]. cbn in E. injection E as <- _. now left.
    - cbn [opt_text app]. change (s2b "?") with [63]. rewrite tag_c_byte_fail; [exact (F (p, None))|]. intros r E. destruct (up_frag c); discriminate. }
  unfold pbind at 1, p_opt at 1, path. destruct (up_path c) as [p|]; cbn [opt_text app].
  - destruct (Hp p eq_refl) as ((r & ->) & Hb). rewrite is_not_c_app; [exact (Q (Some (47 :: r)))|discriminate| |].
    + eapply Forall_impl; [|exact Hb]. intros a H K. apply H. cbn in K |- *. intuition.
    + intros x r' E. destruct (up_query c); [cbn in E; injection E as <- _; cbn; auto|]. destruct (up_frag c); [cbn in E; injection E as <- _; cbn; auto|discriminate].
  - rewrite is_not_c_fail; [exact (Q None)|].
    intros x r' E. destruct (up_query c); [cbn in E; injection E as <- _; cbn; auto|]. destruct (up_frag c); [cbn in E; injection E as <- _; cbn; auto|discriminate].
Qed.
Lemma hostport_ok c pre : (plain_host (up_host c) \/ literal_host (up_host c)) ->
  (forall p, up_portt c = Some p -> p <> [] /\ no_bytes (s2b "/?# ") p) -> good_tail c -> pre = [] \/ pre = s2b "//" ->
  p_opt (plet h := hostname in plet p := p_opt port in pret (h, p)) (pre ++ hostport_text c ++ tail_text c)
  = POk (tail_text c) (Some (up_host c, up_portt c)).
Proof.
  intros Hh Hp Ht Hpre. pose proof (tail_text_start c Ht) as TS. unfold p_opt at 1, pbind at 1.
  assert (H : hostname (pre ++ hostport_text c ++ tail_text c) = POk (opt_text (s2b ":") (up_portt c) ++ tail_text c) (up_host c)).
  { unfold hostport_text. rewrite <- app_assoc. destruct Hpre as [->| ->].
    - cbn [app]. apply hostname_ok; [assumption|]. intros x r E. destruct (up_portt c); [cbn in E; injection E as <- _; cbn; auto|].
      specialize (TS x r E). cbn in TS |- *. intuition.
    - apply hostname_skip; [assumption|]. intros x r E. destruct (up_portt c); [cbn in E; injection E as <- _; cbn; auto|].
      specialize (TS x r E). cbn in TS |- *. intuition. }
  rewrite H. unfold pbind, p_opt. destruct (up_portt c) as [p|]; cbn [opt_text].
  - destruct (Hp p eq_refl). change ((s2b ":" ++ p) ++ tail_text c) with (58 :: p ++ tail_text c). now rewrite port_ok.
  - cbn [app]. now rewrite port_none.
Qed.
Lemma no_colon_split u p : no_bytes (s2b ":@") u ->
  p_opt (plet u := take_until_c (s2b ":") in plet _t := tag_c (s2b ":") in pret u) (u ++ opt_text (s2b ":") p) =
  match p with Some w => POk w (Some u) | None => POk u None end.
Proof.
  intro Hu. assert (~ In 58 u) by (apply (no_bytes_not_in _ _ _ Hu); cbn; auto). unfold p_opt, pbind. change (s2b ":") with [58].
  destruct p as [w|]; cbn [opt_text].
  - cbn [app]. rewrite take_until_byte by assumption. change (58 :: w) with ([58] ++ w). now rewrite tag_c_app.
  - rewrite app_nil_r. now rewrite take_until_byte_none.
Qed.
Lemma parse_uri_parts c : good_parts c ->
  parse_uri uri_default (uri_text c) = {|
    u_scheme := Some (up_scheme c); u_username := option_map fst (up_cred c);
    u_password := match up_cred c with Some (_, p) => p | None => None end;
    u_hostname := Some (up_host c); u_port := up_portt c; u_port_number := None;
    u_path := up_path c; u_query := up_query c; u_fragment := up_frag c |}.
Proof.
  intros (Hs & Hs2 & Hc & Hh & Hp & Ht).
  assert (SA : p_opt scheme_authority (uri_text c) = POk (tail_text c) (Some (up_scheme c, up_cred c, Some (up_host c, up_portt c)))).
  { unfold p_opt at 1, scheme_authority, pbind at 1, uri_text. change (s2b "://") with (58 :: s2b "//"). cbn [app]. rewrite scheme_ok by assumption.
    unfold pbind at 1, cred_text. destruct (up_cred c) as [[u p]|].
    - destruct Hc as (Hu & Hu2 & Hpw). unfold p_opt at 1, credentials, pbind at 1. rewrite tag_c_app. unfold pbind at 1.
      rewrite peek_not_slash.
      2: { destruct u as [|x u]; [destruct p; intros r E; discriminate|]. apply not_starting_app; [discriminate|]. apply not_starting_app; [discriminate|assumption]. }
      unfold pbind at 1. change (s2b "@") with [64].
      replace ((u ++ opt_text (s2b ":") p ++ [64]) ++ hostport_text c ++ tail_text c) with ((u ++ opt_text (s2b ":") p) ++ 64 :: hostport_text c ++ tail_text c) by (rewrite <- !app_assoc; reflexivity).
      rewrite take_until_byte.
      2: { intro K. apply in_app_iff in K as [K|K]; [revert K; apply (no_bytes_not_in _ _ _ Hu); cbn; auto|]. destruct p as [w|]; [|contradiction].
           cbn in K. destruct K as [K|K]; [discriminate|]. revert K. apply (no_bytes_not_in _ _ _ (Hpw w eq_refl)). now left. }
      unfold pbind at 1. change (64 :: hostport_text c ++ tail_text c) with ([64] ++ hostport_text c ++ tail_text c). rewrite tag_c_app. unfold pret at 1.
      rewrite no_colon_split by assumption.
      pose proof (hostport_ok c [] Hh Hp Ht (or_introl eq_refl)) as HP. cbn [app] in HP. destruct p as [w|]; unfold pbind at 1; rewrite HP; cbn [opt_text]; rewrite ?app_nil_r; reflexivity.
    - unfold p_opt at 1, credentials, pbind at 1. rewrite tag_c_app. unfold pbind at 1.
      destruct (host_first _ Hh) as (Hne & Hns). rewrite peek_not_slash.
      2: { unfold hostport_text. cbn [app]. rewrite <- app_assoc. now apply not_starting_app. }
      unfold pbind at 1. change (s2b "@") with [64]. cbn [app]. rewrite take_until_byte_none by (apply (no_bytes_not_in _ _ _ Hc); now left).
      unfold pbind at 1. rewrite (hostport_ok c (s2b "//") Hh Hp Ht (or_intror eq_refl)). reflexivity. }
  unfold parse_uri, uri_tuple, pbind at 1. rewrite SA.
  destruct (tail_ok c Ht) as (_ & T). unfold pbind, pret in T |- *.
  destruct (p_opt path (tail_text c)) as [r1 v1| |]; [|discriminate|discriminate].
  destruct (p_opt query r1) as [r2 v2| |]; [|discriminate|discriminate].
  destruct (p_opt fragment r2) as [r3 v3| |]; [|discriminate|discriminate].
  injection T as -> -> -> ->. destruct (up_cred c) as [[u [w|]]|], (up_portt c), (up_path c), (up_query c), (up_frag c); reflexivity.
Qed.
Lemma parse_uri_origin c p : good_tail c -> up_path c = Some p ->
  parse_uri uri_default (tail_text c) = {|
    u_scheme := None; u_username := None; u_password := None; u_hostname := None; u_port := None; u_port_number := None;
    u_path := up_path c; u_query := up_query c; u_fragment := up_frag c |}.
Proof.
  intros Ht Hp. destruct (proj1 Ht p Hp) as ((r & Er) & _).
  assert (SA : p_opt scheme_authority (tail_text c) = POk (tail_text c) None).
  { unfold p_opt, scheme_authority, scheme, pbind, p_peek, p_not. unfold tail_text at 1. rewrite Hp, Er. cbn [opt_text app].
    change (s2b "/") with [47]. change (47 :: r ++ ?x) with ([47] ++ r ++ x). unfold tag_c. reflexivity. }
  unfold parse_uri, uri_tuple, pbind at 1. rewrite SA.
  destruct (tail_ok c Ht) as (_ & T). unfold pbind, pret in T |- *.
  destruct (p_opt path (tail_text c)) as [r1 v1| |]; [|discriminate|discriminate].
  destruct (p_opt query r1) as [r2 v2| |]; [|discriminate|discriminate].
  destruct (p_opt fragment r2) as [r3 v3| |]; [|discriminate|discriminate].
  injection T as -> -> -> ->. destruct (up_path c), (up_query c), (up_frag c); reflexivity.
Qed.

(** ** Counterexamples, by computation. *)
Definition cfg_iis : decoder_cfg := {|
  double_decode_normalized_path := false; double_decode_normalized_query := false;
  backslash_convert_slashes := true; convert_lowercase := true;
  path_separators_compress := true; path_separators_decode := true; plusspace_decode := true;
  nul_raw_terminates := false; nul_raw_unwanted := UIgnore; control_chars_unwanted := UIgnore;
  allow_space_uri := false; u_encoding_decode := true; u_encoding_unwanted := UIgnore;
  url_encoding_invalid_handling := PRESERVE_PERCENT; url_encoding_invalid_unwanted := UIgnore;
  nul_encoded_terminates := false; nul_encoded_unwanted := UIgnore; utf8_invalid_unwanted := UIgnore;
  utf8_convert_bestfit := true; bestfit := {| bm_map := [(8725, 47)]; bm_repl := 63 |} |}.
Definition uri_of_path (p : bytes) : uri := {|
  u_scheme := None; u_username := None; u_password := None; u_hostname := None; u_port := None;
  u_port_number := None; u_path := Some p; u_query := None; u_fragment := None |}.
Lemma bestfit_double_slash : exists cfg p out, path_separators_compress cfg = true /\
  fst (fst (normalized_path cfg (uri_of_path p) 0 UIgnore)) = Some out /\ ~ no_double_slash out.
Proof.
  exists cfg_iis, (s2b "/a/%c0%afb"), (s2b "/a//b"). split; [reflexivity|]. split; [vm_compute; reflexivity|].
  intro H. apply (H (s2b "/a") (s2b "b")). reflexivity.
Qed.
Lemma normalize_not_rfc3986 : normalize_uri_path (s2b "/a/b/..") = s2b "/a" /\ normalize_uri_path (s2b "/a/..") = [].
Proof. vm_compute. auto. Qed.
Lemma normalize_relative_escapes : exists p, not_starting 47 p /\ exists r, normalize_uri_path p = 47 :: r.
Proof. exists (s2b "a/..//b"). split; [intros r E; discriminate|]. exists (s2b "b"). reflexivity. Qed.
Lemma parse_uri_empty_query : u_fragment (parse_uri uri_default (s2b "/p?#frag")) = None.
Proof. vm_compute. reflexivity. Qed.
Lemma parse_uri_at_in_path : u_hostname (parse_uri uri_default (s2b "http://host/a@evil/b")) = Some (s2b "evil")
  /\ u_path (parse_uri uri_default (s2b "http://host/a@evil/b")) = Some (s2b "/b").
Proof. vm_compute. auto. Qed.
