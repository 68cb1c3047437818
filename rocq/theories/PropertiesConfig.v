(** Property C72 of properties.jsonl: configuration calls. Vocabulary: SpecConfig.v. *)
From Verif Require Import Base ModelBestfit ModelUtil ModelUrl ModelState ModelConfig SpecConfig ProofsConfig.
From Coq Require Import ZArith.

(** After any calls every option has the value of the last call that says something about it, and its default if none does. *)
Theorem C72_last_call_counts : forall l o, value_of o (rust_configured l) = last_word o (flat_map says l) (initial o).
Proof. exact rust_last_word. Qed.
Print Assumptions C72_last_call_counts.
(** The same for the C interface. *)
Theorem C72_last_call_counts_c : forall l, exists g, c_configured l = Some g /\ forall o, value_of o g = last_word o (flat_map c_says l) (initial o).
Proof. exact c_last_word. Qed.
Print Assumptions C72_last_call_counts_c.
(** Only a personality that is not supported is refused. *)
Theorem C72_refused : forall c g, snd (rust_config c g) = match c with RServerPersonality p => supported p | _ => true end.
Proof. exact rust_ok. Qed.
Print Assumptions C72_refused.
Theorem C72_refused_c : forall c g, snd (c_config c (Some g)) = match c with CServerPersonality p => supported p | _ => true end.
Proof. intros c g. rewrite <- (c_ok c g). unfold c_config. destruct (c_config_some c g). reflexivity. Qed.
Print Assumptions C72_refused_c.
(** Calls with NULL do nothing, and a connection made with NULL has the defaults. *)
Theorem C72_null : forall l, fold_left (fun p c => fst (c_config c p)) l None = None /\ (forall o, value_of o (htp_connp_create None) = initial o).
Proof. intros l. split; [apply c_null_fold|exact default_read]. Qed.
Print Assumptions C72_null.
(** The rules for IIS 5.0, which the parser has, cannot be asked for. *)
Theorem C72_iis_5_0_unavailable : forall l, c_pers (g_cfg (rust_configured l)) <> ModelUtil.IIS_5_0.
Proof. intros l. destruct (never_iis5 l) as [-> H]. destruct (g_pers (rust_configured l)); cbn; congruence. Qed.
Print Assumptions C72_iis_5_0_unavailable.
(** Finding: MINIMAL ("all optional features are disabled") disables nothing that another personality has enabled. *)
Theorem C72_minimal_refuted : exists l o, value_of o (rust_configured (l ++ [RServerPersonality PMinimal])) <> initial o /\ o <> OPersonality /\ (exists p, l = [RServerPersonality p]).
Proof. exists [RServerPersonality PIds], OLowercase. split; [vm_compute; discriminate|]. split; [discriminate|eauto]. Qed.
Print Assumptions C72_minimal_refuted.
(** Finding: a flag of the C interface is not set by any other true value. *)
Theorem C72_true_values_refuted : exists z, z <> 0%Z /\ match c_configured [CTxAutoDestroy z] with Some g => value_of OAutoDestroy g = VFlag false | None => False end.
Proof. exists 2%Z. split; [discriminate|reflexivity]. Qed.
Print Assumptions C72_true_values_refuted.

(** A personality, a change, another personality, and one that is refused. *)
Definition ex_calls : list rust_call := [RServerPersonality PIds; RPlusspaceDecode false; RServerPersonality PApache2; RServerPersonality PIis40; RFieldLimit 100].
Example C72_ex :
  map (fun o => value_of o (rust_configured ex_calls)) [OLowercase; OUEncoding; OBackslash; OPlus; OPersonality; OLeadingSpace; OFieldLimit; OMaxTx] =
  [VFlag true; VFlag false; VFlag false; VFlag false; VPers PApache2; VReaction U400; VNum 100; VNum 512] /\
  snd (rust_config (RServerPersonality PIis40) settings_default) = false /\
  match c_configured [CDecompressionLayerLimit (-1); CLzmaLayers 3; CBestfitReplacementByte (-1); CFlushIncomplete 1] with
  | Some g => map (fun o => value_of o g) [OLayers; OLzmaLayers; OReplacement; OFlush] = [VLimit None; VLimit (Some 3); VNum 255; VFlag true]
  | None => False
  end.
Proof. vm_compute. repeat split; reflexivity. Qed.
