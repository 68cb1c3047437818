(** A decoder for the examples: every byte stands for two of it. It works for the kinds [ok] and rejects everything otherwise. *)
From Verif Require Import Base ModelState ModelDecomp SpecDecomp ProofsInflate.
From Coq Require Import Lia PeanoNat.
Open Scope N_scope.

Definition twice (x : bytes) : bytes := flat_map (fun c => [c; c]) x.
Definition toy (cap : nat) (ok : rawkind -> bool) : raw := {|
  rw_st := option bytes;
  rw_new := fun k => if ok k then Some [] else None;
  rw_write := fun s d => match s with
    | None => (IoErr IoOther, None)
    | Some b => let n := Nat.min (length d) ((cap - length b) / 2) in
                if (n =? 0)%nat then (IoErr IoWriteZero, s) else (IoOk (N.of_nat n), Some (b ++ twice (firstn n d)))
    end;
  rw_flush := fun s => (IoOk tt, s);
  rw_buf := fun s => Some (firstn cap (match s with Some b => b | None => [] end));
  rw_clear := option_map (fun _ => []);
  rw_finish := fun s => match s with Some b => IoOk (firstn cap b) | None => IoErr IoOther end |}.
Lemma twice_app a b : twice (a ++ b) = twice a ++ twice b. Proof. apply flat_map_app. Qed.
Lemma twice_length a : length (twice a) = (2 * length a)%nat. Proof. unfold twice. induction a as [|c a IH]; [reflexivity|]. cbn [flat_map length app]. rewrite IH. lia. Qed.
Definition toy_rep (cap : nat) (ok : rawkind -> bool) (s : rw_st (toy cap ok)) (x y : bytes) : Prop :=
  exists b, s = Some b /\ (length b <= cap)%nat /\ y = twice x.
Lemma toy_decodes cap ok k : (2 <= cap)%nat -> ok k = true -> decodes (toy cap ok) k twice (fun _ => True) (fun _ => True) (toy_rep cap ok).
Proof.
  intros Hc Hk. split.
  - auto.
  - intros x z. exists (twice z). apply twice_app.
  - auto.
  - cbn. rewrite Hk. split; [exists []; cbn; repeat split; lia|]. now destruct cap.
  - intros s x y (b & _ & _ & ->). exists []. now rewrite app_nil_r.
  - intros s x y b d (b0 & -> & Hb & ->) Eb Nd _. cbn in Eb. injection Eb as <-. rewrite firstn_all2 by exact Hb. cbn [toy rw_write]. cbv zeta. set (n := Nat.min (length d) ((cap - length b0) / 2)).
    destruct (n =? 0)%nat eqn:En.
    + apply Nat.eqb_eq in En. exists []. rewrite !app_nil_r. split; [exists b0; auto|]. split; [cbn; now rewrite firstn_all2|].
      intros ->. destruct d as [|c d]; [congruence|]. cbn [length] in *. assert (1 <= (cap - 0) / 2)%nat by (apply (Nat.div_le_lower_bound (cap - 0) 2 1); lia). subst n. lia.
    + apply Nat.eqb_neq in En. assert (n <= length d)%nat by (subst n; lia). assert (2 * n <= cap - length b0)%nat.
      { pose proof (Nat.mul_div_le (cap - length b0) 2). subst n. lia. }
      rewrite Nat2N.id. split; [unfold blen; lia|]. split; [|lia]. exists (twice (firstn n d)).
      assert (length (b0 ++ twice (firstn n d)) <= cap)%nat by (rewrite app_length, twice_length, firstn_length; lia).
      split; [exists (b0 ++ twice (firstn n d)); rewrite twice_app; auto|]. cbn. now rewrite firstn_all2.
  - intros s x y b (b0 & -> & Hb & ->) Eb _. cbn in *. injection Eb as <-. exists []. rewrite !app_nil_r. split; [exists b0; auto|]. auto.
  - intros s x y b (b0 & -> & Hb & ->) Eb. cbn. split; [exists []; cbn; repeat split; lia|]. now destruct cap.
  - intros s x (b0 & -> & Hb & _) Eb _. cbn in *. now injection Eb as ->.
Qed.
Lemma toy_within cap ok : buffers_within (N.of_nat cap) (toy cap ok).
Proof.
  split; cbn.
  - intros s b [= <-]. unfold blen. pose proof (firstn_le_length cap (match s with Some b => b | None => [] end)). lia.
  - intros [b0|] b; [|discriminate]. intros [= <-]. unfold blen. pose proof (firstn_le_length cap b0). lia.
Qed.
