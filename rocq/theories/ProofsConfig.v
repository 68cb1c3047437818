(** Proofs for C72. *)
From Verif Require Import Base ModelBestfit ModelUtil ModelUrl ModelState ModelConfig SpecConfig.
From Coq Require Import ZArith.

Lemma last_word_app : forall o a b v, last_word o (a ++ b) v = last_word o b (last_word o a v).
Proof. induction a as [|[o' w] a IH]; intros b v; cbn [app last_word]; auto. Qed.

Lemma default_read : forall o, value_of o settings_default = initial o.
Proof. destruct o; reflexivity. Qed.

Lemma pers_read : forall p g o, match set_server_personality p g with Some g' => supported p = true /\ value_of o g' = last_word o (personality_says p) (value_of o g) | None => supported p = false end.
Proof. intros p [c p0 ia ml tl] o. destruct p; cbn [set_server_personality supported]; try reflexivity; split; try reflexivity; destruct o; reflexivity. Qed.

Lemma rust_read : forall c g o, value_of o (fst (rust_config c g)) = last_word o (says c) (value_of o g).
Proof.
  intros c g o.
  destruct c; try (destruct g as [cf p0 ia ml tl]; destruct o; reflexivity).
  cbn [rust_config says]. pose proof (pers_read p g o) as H. destruct (set_server_personality p g) as [g'|]; cbn [fst]; [apply H|].
  unfold personality_says. rewrite H. reflexivity.
Qed.
Lemma rust_ok : forall c g, snd (rust_config c g) = match c with RServerPersonality p => supported p | _ => true end.
Proof.
  intros c g. destruct c; try reflexivity. cbn [rust_config]. pose proof (pers_read p g OPlus) as H.
  destruct (set_server_personality p g); cbn [snd]; [symmetry; apply H|auto].
Qed.

Lemma flag_is : forall z, VFlag (z =? 1)%Z = flag z.
Proof. intros z. unfold flag. destruct (Z.eq_dec z 1) as [->|H]; [reflexivity|]. apply Z.eqb_neq in H. rewrite H. reflexivity. Qed.
Lemma limit_is : forall z, VLimit (z_limit z) = limit z.
Proof. intros z. destruct z; reflexivity. Qed.
Lemma c_read : forall c g o, value_of o (fst (c_config_some c g)) = last_word o (c_says c) (value_of o g).
Proof.
  intros c g o.
  destruct c; cbn [c_config_some c_says]; rewrite <- ?flag_is, <- ?limit_is; try (destruct g as [cf p0 ia ml tl]; destruct o; reflexivity).
  pose proof (pers_read p g o) as H. destruct (set_server_personality p g) as [g'|]; cbn [fst]; [apply H|].
  unfold personality_says. rewrite H. reflexivity.
Qed.
Lemma c_ok : forall c g, snd (c_config_some c g) = match c with CServerPersonality p => supported p | _ => true end.
Proof.
  intros c g. destruct c; try reflexivity. cbn [c_config_some]. pose proof (pers_read p g OPlus) as H.
  destruct (set_server_personality p g); cbn [snd]; [symmetry; apply H|auto].
Qed.

Lemma rust_fold : forall l g o, value_of o (fold_left (fun g c => fst (rust_config c g)) l g) = last_word o (flat_map says l) (value_of o g).
Proof. induction l as [|c l IH]; intros g o; cbn [fold_left flat_map]; [reflexivity|]. rewrite IH, last_word_app, rust_read. reflexivity. Qed.
Lemma rust_last_word : forall l o, value_of o (rust_configured l) = last_word o (flat_map says l) (initial o).
Proof. intros. unfold rust_configured. rewrite rust_fold, default_read. reflexivity. Qed.
Lemma c_fold : forall l g o, exists g', fold_left (fun p c => fst (c_config c p)) l (Some g) = Some g' /\ value_of o g' = last_word o (flat_map c_says l) (value_of o g).
Proof.
  induction l as [|c l IH]; intros g o; cbn [fold_left flat_map]; [eauto|].
  unfold c_config at 2. pose proof (c_read c g o) as H. destruct (c_config_some c g) as [g1 ok] eqn:E. cbn [fst] in *.
  destruct (IH g1 o) as (g' & A & B). exists g'. split; [assumption|]. rewrite B, last_word_app, H. reflexivity.
Qed.
Lemma c_last_word : forall l, exists g, c_configured l = Some g /\ forall o, value_of o g = last_word o (flat_map c_says l) (initial o).
Proof.
  intros l. destruct (c_fold l settings_default OPlus) as (g & A & _). exists g. split; [exact A|]. intros o.
  destruct (c_fold l settings_default o) as (g' & A' & B). rewrite A in A'. injection A' as <-. rewrite B, default_read. reflexivity.
Qed.
Lemma c_null_fold : forall l, fold_left (fun p c => fst (c_config c p)) l None = None.
Proof. induction l; cbn; auto. Qed.

(** What the parser sees of the personality. *)
Lemma pers_sync_step : forall c g, c_pers (g_cfg g) = pers_seen (g_pers g) -> g_pers g <> PIis50 ->
  c_pers (g_cfg (fst (rust_config c g))) = pers_seen (g_pers (fst (rust_config c g))) /\ g_pers (fst (rust_config c g)) <> PIis50.
Proof. intros c g H N1. destruct g as [cf p0 ia ml tl]. destruct c; try (split; assumption). destruct p; cbn; split; auto; discriminate. Qed.
Lemma pers_sync : forall l g, c_pers (g_cfg g) = pers_seen (g_pers g) -> g_pers g <> PIis50 ->
  let g' := fold_left (fun g c => fst (rust_config c g)) l g in c_pers (g_cfg g') = pers_seen (g_pers g') /\ g_pers g' <> PIis50.
Proof. induction l as [|c l IH]; intros g H N1; cbn [fold_left]; [auto|]. destruct (pers_sync_step c g H N1). apply IH; assumption. Qed.
Lemma never_iis5 : forall l, c_pers (g_cfg (rust_configured l)) = pers_seen (g_pers (rust_configured l)) /\ g_pers (rust_configured l) <> PIis50.
Proof. intros l. apply (pers_sync l settings_default); [reflexivity|discriminate]. Qed.
