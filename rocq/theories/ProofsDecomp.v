(** Proofs about decompressors (ModelDecomp.v). *)
From Verif Require Import Base ModelUtil ModelState ModelTx ModelDecomp SpecDecomp.
From Coq Require Import Lia.

(** * Programs *)
Lemma calls_bind {A B} (m : dm A) (f : A -> dm B) :
  calls (dbind m f) = calls m ++ match result m with Some a => calls (f a) | None => [] end.
Proof. induction m as [a|d k IH|]; cbn; [reflexivity| |reflexivity]. now rewrite IH. Qed.
Lemma result_bind {A B} (m : dm A) (f : A -> dm B) : result (dbind m f) = match result m with Some a => result (f a) | None => None end.
Proof. induction m as [a|d k IH|]; cbn; [reflexivity| |reflexivity]. now rewrite IH. Qed.
Lemma all_accept_result {A} (m : dm A) : all_accept m = result m.
Proof. induction m; cbn; auto. Qed.
Lemma joined_app a b : joined (a ++ b) = joined a ++ joined b.
Proof. apply flat_map_app. Qed.

(** * A failed callback ends a call *)
Definition is_err {A} (x : ior A) : Prop := match x with IoErr _ => True | IoOk _ => False end.
Lemma ends_bind {A B} (bad : A -> Prop) (bad' : B -> Prop) (m : dm A) (f : A -> dm B) :
  ends_at_failure bad m -> (forall a, bad a -> exists b, f a = DmRet b /\ bad' b) -> (forall a, ends_at_failure bad' (f a)) ->
  ends_at_failure bad' (dbind m f).
Proof.
  intros H Hf Hg. induction m as [a|d k IH|]; cbn in *; [apply Hg| |exact I]. destruct H as [Hk Ht]. split; [|now apply IH].
  destruct (k false) as [a| |]; [|contradiction|contradiction]. cbn. destruct (Hf a Hk) as (b & -> & Hb). exact Hb.
Qed.
Lemma within_bind {A B} n (m : dm A) (f : A -> dm B) : calls_within n m -> (forall a, calls_within n (f a)) -> calls_within n (dbind m f).
Proof. intros H Hf. induction m as [a|d k IH|]; cbn in *; [apply Hf| |exact I]. destruct H as (H1 & H2 & H3). auto. Qed.
Lemma within_mono {A} n m (p : dm A) : n <= m -> calls_within n p -> calls_within m p.
Proof. intros L H. induction p as [a|d k IH|]; cbn in *; [exact I| |exact I]. destruct H as (H1 & H2 & H3). split; [destruct d; [lia|exact I]|]. auto. Qed.
Lemma blen_skipn n (d : bytes) : blen (skipn n d) <= blen d.
Proof. unfold blen. rewrite skipn_length. lia. Qed.
Section Ends.
Variable r : raw.
Variable lz : bool.
Lemma ends_all f :
  (forall c d, ends_at_failure (fun x => is_err (fst x)) (c_write r lz f c d)) /\
  (forall c d, ends_at_failure (fun x => is_err (fst x)) (write_all r lz f c d)) /\
  (forall l i w, ends_at_failure (fun x => is_err (fst (fst x))) (flush_writer r lz f l i w)).
Proof using Type.
  induction f as [|f (IW & IA & IF)]; [repeat split; intros; exact I|]. split; [|split].
  - intros c d. cbn [c_write]. destruct c as [|l inner]; [cbn; auto|]. destruct (l_pass r l).
    + destruct inner as [i|]; [|exact I]. eapply ends_bind; [apply IW| |intros [x i']; exact I]. intros [x i'] Hx. eexists. split; [reflexivity|exact Hx].
    + destruct (l_writer r l) as [w|]; [|exact I]. destruct (wr_write r w d) as [[n|[|]] w']; [exact I| |].
      * eapply ends_bind with (bad := fun x => is_err (fst (fst x))).
        -- destruct inner; [apply IF|exact I].
        -- intros [[x l'] i'] Hx. destruct x; [destruct Hx|]. eexists. split; [reflexivity|exact I].
        -- intros [[x l'] i']. destruct x; [apply IW|exact I].
      * destruct (restart r lz (with_writer r None l)) as [l'|]; [apply IW|]. destruct inner as [i|]; [|exact I].
        eapply ends_bind; [apply IW| |intros [x i']; exact I]. intros [x i'] Hx. eexists. split; [reflexivity|exact Hx].
  - intros c d. cbn [write_all]. destruct (is_nil d); [exact I|]. eapply ends_bind; [apply IW| |].
    + intros [x c'] Hx. destruct x; [destruct Hx|]. eexists. split; [reflexivity|exact I].
    + intros [x c']. destruct x as [n|]; [|exact I]. destruct (n =? 0); [exact I|apply IA].
  - intros l i w. cbn [flush_writer]. destruct (wr_flush r w) as [fl w']. eapply ends_bind with (bad := fun x => is_err (fst (fst x))).
    + destruct (wr_buf r w') as [b|]; [|exact I]. eapply ends_bind; [apply IA| |intros [x i']; exact I]. intros [x i'] Hx. eexists. split; [reflexivity|exact Hx].
    + intros [[x i'] w''] Hx. destruct x; [destruct Hx|]. eexists. split; [reflexivity|exact I].
    + intros [[x i'] w'']. destruct x; [|exact I]. destruct fl as [|[|]]; [exact I|apply IF|]. destruct (restart r lz l); exact I.
Qed.
Lemma ends_flush f : forall c, ends_at_failure (fun x => is_err (fst x)) (c_flush r lz f c).
Proof using Type.
  induction f as [|f IH]; intros c; [exact I|]. cbn [c_flush]. destruct c as [|l inner]; [exact I|].
  eapply ends_bind with (bad := fun x => is_err (fst (fst x))).
  - destruct (l_writer r l) as [w|]; [|exact I]. eapply ends_bind with (bad := fun x => is_err (fst (fst x))).
    + unfold flush_inner. destruct inner; [apply ends_all|exact I].
    + intros [[x l'] i'] Hx. destruct x; [destruct Hx|]. eexists. split; [reflexivity|exact I].
    + intros [[x l'] i']. destruct x; exact I.
  - intros [[x l'] i'] Hx. destruct x; [destruct Hx|]. eexists. split; [reflexivity|exact I].
  - intros [[x l'] i']. destruct x; [|exact I]. destruct i' as [i|]; [|exact I].
    eapply ends_bind; [apply IH| |intros [x i']; exact I]. intros [x i'] Hx. eexists. split; [reflexivity|exact Hx].
Qed.
Lemma ends_decompress f c d : ends_at_failure (fun x => is_err (fst x)) (decompress r lz f c d).
Proof using Type.
  unfold decompress. eapply ends_bind; [apply ends_all| |].
  - intros [x c'] Hx. destruct x; [destruct Hx|]. eexists. split; [reflexivity|exact I].
  - intros [x c']. destruct x; [apply ends_flush|exact I].
Qed.
Lemma ends_finish f : forall c, ends_at_failure is_err (c_finish r lz f c).
Proof using Type.
  induction f as [|f IH]; intros c; [exact I|]. cbn [c_finish]. destruct c as [|l inner]; [cbn; auto|].
  destruct (l_writer r l) as [w|]; [|destruct inner; [apply IH|exact I]].
  eapply ends_bind with (bad := fun x => is_err (fst (fst x))).
  - unfold flush_inner. destruct inner; [apply ends_all|exact I].
  - intros [[x l'] i'] Hx. destruct x; [destruct Hx|]. eexists. split; [reflexivity|exact I].
  - intros [[x l'] i']. destruct x as [w'|]; [|exact I]. destruct (wr_finish r w') as [b|]; [|exact I]. destruct i' as [i|]; [|exact I].
    eapply ends_bind; [apply ends_all| |].
    + intros [x c'] Hx. destruct x; [destruct Hx|]. eexists. split; [reflexivity|exact I].
    + intros [x c']. destruct x; [apply IH|exact I].
Qed.

(** * Data calls carry data *)
Definition data_only {A} (m : dm A) : Prop := ~ In None (calls m).
Lemma data_bind {A B} (m : dm A) (f : A -> dm B) : data_only m -> (forall a, data_only (f a)) -> data_only (dbind m f).
Proof using Type. intros H Hf. unfold data_only. rewrite calls_bind. intros Hi. apply in_app_or in Hi. destruct Hi as [Hi | Hi]; [exact (H Hi)|]. destruct (result m); [exact (Hf _ Hi)|exact Hi]. Qed.
Lemma data_ret {A} (a : A) : data_only (DmRet a).
Proof using Type. intros []. Qed.
Lemma data_all f :
  (forall c d, data_only (c_write r lz f c d)) /\ (forall c d, data_only (write_all r lz f c d)) /\ (forall l i w, data_only (flush_writer r lz f l i w)).
Proof using Type.
  induction f as [|f (IW & IA & IF)]; [repeat split; intros; intros []|]. split; [|split].
  - intros c d. cbn [c_write]. destruct c as [|l inner]; [cbn; intros [|[]]; discriminate|]. destruct (l_pass r l).
    + destruct inner as [i|]; [|apply data_ret]. apply data_bind; [apply IW|intros [x i']; apply data_ret].
    + destruct (l_writer r l) as [w|]; [|apply data_ret]. destruct (wr_write r w d) as [[m|[|]] w']; [apply data_ret| |].
      * apply data_bind; [destruct inner; [apply IF|apply data_ret]|]. intros [[x l'] i']. destruct x; [apply IW|apply data_ret].
      * destruct (restart r lz (with_writer r None l)) as [l'|]; [apply IW|]. destruct inner as [i|]; [|apply data_ret].
        apply data_bind; [apply IW|intros [x i']; apply data_ret].
  - intros c d. cbn [write_all]. destruct (is_nil d); [apply data_ret|]. apply data_bind; [apply IW|].
    intros [x c']. destruct x as [m|]; [|apply data_ret]. destruct (m =? 0); [apply data_ret|]. apply IA.
  - intros l i w. cbn [flush_writer]. destruct (wr_flush r w) as [fl w']. apply data_bind.
    + destruct (wr_buf r w') as [b|] eqn:E; [|apply data_ret]. apply data_bind; [apply IA|intros [x i']; apply data_ret].
    + intros [[x i'] w'']. destruct x; [|apply data_ret]. destruct fl as [|[|]]; [apply data_ret|apply IF|]. destruct (restart r lz l); apply data_ret.
Qed.
Lemma data_flush f : forall c, data_only (c_flush r lz f c).
Proof using Type.
  induction f as [|f IH]; intros c; [intros []|]. cbn [c_flush]. destruct c as [|l inner]; [apply data_ret|]. apply data_bind.
  - destruct (l_writer r l) as [w|]; [|apply data_ret]. apply data_bind; [unfold flush_inner; destruct inner; [apply data_all|apply data_ret]|].
    intros [[x l'] i']. destruct x; apply data_ret.
  - intros [[x l'] i']. destruct x; [|apply data_ret]. destruct i' as [i|]; [|apply data_ret]. apply data_bind; [apply IH|intros [x i']; apply data_ret].
Qed.
Lemma data_decompress f c d : data_only (decompress r lz f c d).
Proof using Type. unfold decompress. apply data_bind; [apply data_all|]. intros [x c']. destruct x; [apply data_flush|apply data_ret]. Qed.
Lemma data_delivered f : forall cs c l, delivered r lz f c cs = Some l -> ~ In None l.
Proof using Type.
  induction cs as [|b cs IH]; intros c l; cbn [delivered]; [intros [= <-] []|]. destruct (result (decompress r lz f c b)) as [[[u|] c1]|]; try discriminate.
  destruct (delivered r lz f c1 cs) as [l1|] eqn:E1; [|discriminate]. intros [= <-] Hi. apply in_app_or in Hi. destruct Hi as [Hi | Hi]; [exact (data_decompress f c b Hi)|]. exact (IH c1 l1 E1 Hi).
Qed.
Lemma data_map (l : list (option bytes)) : ~ In None l -> exists bs, l = map Some bs /\ joined l = concat bs.
Proof using Type.
  induction l as [|[b|] l IH]; intros H; [exists []; auto| |destruct H; now left]. destruct IH as (bs & -> & Ej); [intros Hi; apply H; now right|]. exists (b :: bs). split; [reflexivity|].
  cbn [joined flat_map concat]. now rewrite <- Ej.
Qed.

(** * The size of the pieces *)
Variable B : N.
Hypothesis HB : buffers_within B r.
Lemma wr_buf_within w b : wr_buf r w = Some b -> blen b <= B.
Proof using HB. destruct HB as [H1 H2]. destruct w; cbn; intros E; [eapply H1, E|eapply H1, E|]. injection E as <-. cbn. lia. Qed.
Lemma wr_finish_within w b : wr_finish r w = IoOk b -> blen b <= B.
Proof using HB. destruct HB as [H1 H2]. destruct w; cbn; intros E; [eapply H2, E|eapply H2, E|]. injection E as <-. cbn. lia. Qed.
Lemma within_all f :
  (forall c d n, blen d <= n -> B <= n -> calls_within n (c_write r lz f c d)) /\
  (forall c d n, blen d <= n -> B <= n -> calls_within n (write_all r lz f c d)) /\
  (forall l i w, calls_within B (flush_writer r lz f l i w)).
Proof using HB.
  induction f as [|f (IW & IA & IF)]; [repeat split; intros; exact I|]. split; [|split].
  - intros c d n Ln Lb. cbn [c_write]. destruct c as [|l inner]; [cbn; auto|]. destruct (l_pass r l).
    + destruct inner as [i|]; [|exact I]. apply within_bind; [apply IW; assumption|intros [x i']; exact I].
    + destruct (l_writer r l) as [w|]; [|exact I]. destruct (wr_write r w d) as [[m|[|]] w']; [exact I| |].
      * apply within_bind; [destruct inner; [eapply within_mono; [exact Lb|apply IF]|exact I]|].
        intros [[x l'] i']. destruct x; [apply IW; assumption|exact I].
      * destruct (restart r lz (with_writer r None l)) as [l'|]; [apply IW; assumption|]. destruct inner as [i|]; [|exact I].
        apply within_bind; [apply IW; assumption|intros [x i']; exact I].
  - intros c d n Ln Lb. cbn [write_all]. destruct (is_nil d); [exact I|]. apply within_bind; [apply IW; assumption|].
    intros [x c']. destruct x as [m|]; [|exact I]. destruct (m =? 0); [exact I|]. apply IA; [|exact Lb]. pose proof (blen_skipn (N.to_nat m) d). lia.
  - intros l i w. cbn [flush_writer]. destruct (wr_flush r w) as [fl w']. apply within_bind.
    + destruct (wr_buf r w') as [b|] eqn:E; [|exact I]. apply within_bind; [apply IA; [eapply wr_buf_within, E|lia]|intros [x i']; exact I].
    + intros [[x i'] w'']. destruct x; [|exact I]. destruct fl as [|[|]]; [exact I|apply IF|]. destruct (restart r lz l); exact I.
Qed.
Lemma within_flush f : forall c, calls_within B (c_flush r lz f c).
Proof using HB.
  induction f as [|f IH]; intros c; [exact I|]. cbn [c_flush]. destruct c as [|l inner]; [exact I|]. apply within_bind.
  - destruct (l_writer r l) as [w|]; [|exact I]. apply within_bind; [unfold flush_inner; destruct inner; [apply within_all|exact I]|].
    intros [[x l'] i']. destruct x; exact I.
  - intros [[x l'] i']. destruct x; [|exact I]. destruct i' as [i|]; [|exact I]. apply within_bind; [apply IH|intros [x i']; exact I].
Qed.
Lemma within_decompress f c d n : blen d <= n -> B <= n -> calls_within n (decompress r lz f c d).
Proof using HB.
  intros Ln Lb. unfold decompress. apply within_bind; [apply within_all; assumption|]. intros [x c']. destruct x; [|exact I]. eapply within_mono; [exact Lb|apply within_flush].
Qed.
Lemma within_finish f : forall c, calls_within B (c_finish r lz f c).
Proof using HB.
  induction f as [|f IH]; intros c; [exact I|]. cbn [c_finish]. destruct c as [|l inner]; [cbn; auto|].
  destruct (l_writer r l) as [w|]; [|destruct inner; [apply IH|exact I]]. apply within_bind; [unfold flush_inner; destruct inner; [apply within_all|exact I]|].
  intros [[x l'] i']. destruct x as [w'|]; [|exact I]. destruct (wr_finish r w') as [b|] eqn:E; [|exact I]. destruct i' as [i|]; [|exact I].
  apply within_bind; [apply within_all; [eapply wr_finish_within, E|lia]|]. intros [x c']. destruct x; [apply IH|exact I].
Qed.
End Ends.
Lemma ends_mono {A} (P Q : A -> Prop) (m : dm A) : (forall a, P a -> Q a) -> ends_at_failure P m -> ends_at_failure Q m.
Proof. intro H. induction m as [a|d k IH|]; cbn; auto. intros [H1 H2]. split; [|now apply IH]. destruct (k false); auto. Qed.
Lemma failure_ends r lz f c d :
  ends_at_failure (fun x => exists err, fst x = IoErr err) (decompress r lz f c d) /\
  ends_at_failure (fun x => exists err, x = IoErr err) (c_finish r lz f c).
Proof.
  split; [eapply ends_mono; [|apply ends_decompress]|eapply ends_mono; [|apply ends_finish]].
  - intros [[|x] ?]; cbn; [contradiction|eauto].
  - intros [|x]; cbn; [contradiction|eauto].
Qed.
