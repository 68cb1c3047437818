(** The instances of ProofsTwo.v for C50 and C70. *)
From Verif Require Import Base ModelUtil ModelState ModelTx ModelConn SpecConn SpecTwo ProofsBase ProofsConn ProofsCore ProofsHist ProofsRStream ProofsRMsg ProofsTwo ProofsLoop.

Lemma same_trace (t : list (event * status)) t' : Forall2 (alike (fun _ x y => x = y)) t t' -> t' = t.
Proof. induction 1 as [|[a x] [b y] t t' [A B] _ IH]; cbn in *; congruence. Qed.
Lemma alike_refl t : Forall2 (alike (fun _ x y => x = y)) t t.
Proof. induction t as [|[a x] t IH]; constructor; auto. split; reflexivity. Qed.
Lemma history_new keep : keep [] = [] -> R (fun _ x y => x = y) keep st_new st_new.
Proof. intro K. exists []. split; [unfold putin, st_new; cbn; now rewrite K|constructor]. Qed.

(** * The log level *)
Lemma up_to_kept L L' lv c l : L <= L' ->
  up_to L (if lv <=? L' then mk_log lv c :: l else l) = if lv <=? L then mk_log lv c :: up_to L l else up_to L l.
Proof.
  intro H. destruct (N.leb_spec lv L'), (N.leb_spec lv L); try lia; cbn [up_to filter lg_level]; auto.
  - destruct (N.leb_spec lv L); [reflexivity|lia].
  - destruct (N.leb_spec lv L); [lia|reflexivity].
Qed.
Lemma level_filters e L l : L <= c_log_level (e_cfg e) -> log_blind e ->
  history (with_level L e) l = (fst (history e l), set_s_logs (up_to L (s_logs (snd (history e l)))) (snd (history e l))).
Proof.
  intros H [B1 B2]. unfold history.
  destruct (sim_run_ops e (with_level L e) (c_flush (e_cfg e)) (fun _ x y => x = y) (up_to L)) with (l := l) (s1 := st_new) (s2 := st_new) as [E (t & F & G)].
  - exists L. destruct e as [[] ? ? ? ?]. reflexivity.
  - reflexivity.
  - reflexivity.
  - intros; now left.
  - intros. now apply up_to_kept.
  - intros s1 s2 ev (t & -> & G). apply same_trace in G. subst t. cbn [with_level e_cb]. unfold putin.
    replace (set_s_trace (s_trace s1) _) with (set_s_logs (up_to L (s_logs s1)) s1) by reflexivity. now rewrite B1.
  - intros s1 s2 dc d (t & -> & G). apply same_trace in G. subst t. cbn [with_level e_codec]. unfold putin.
    replace (set_s_trace (s_trace s1) _) with (set_s_logs (up_to L (s_logs s1)) s1) by reflexivity. now rewrite B2.
  - reflexivity.
  - now apply history_new.
  - apply same_trace in G. subst t. rewrite (surjective_pairing (run_ops l (with_level L e) st_new)). rewrite E, F. f_equal.
Qed.
Lemma level_inert e L L' l : log_blind e ->
  fst (history (with_level L e) l) = fst (history (with_level L' e) l) /\
  set_s_logs [] (snd (history (with_level L e) l)) = set_s_logs [] (snd (history (with_level L' e) l)).
Proof.
  intro B. set (M := N.max L L').
  assert (H : forall K, K <= M -> fst (history (with_level K e) l) = fst (history (with_level M e) l) /\
                        set_s_logs [] (snd (history (with_level K e) l)) = set_s_logs [] (snd (history (with_level M e) l))).
  { intros K HK. replace (with_level K e) with (with_level K (with_level M e)) by reflexivity. rewrite (level_filters (with_level M e) K l); [split; reflexivity|exact HK|exact B]. }
  destruct (H L) as [A1 A2]; [lia|]. destruct (H L') as [B1 B2]; [lia|]. split; congruence.
Qed.

(** * The answers *)
Lemma unanswered_R keep s1 s2 : (forall l, keep l = l) -> R same_answer keep s1 s2 -> unanswered s1 = unanswered s2.
Proof.
  intros K (t & -> & G). rewrite K. unfold unanswered, putin. cbn [s_trace set_s_trace]. replace (map (fun x => (fst x, SOk)) t) with (map (fun x : event * status => (fst x, SOk)) (s_trace s1)).
  - destruct s1. reflexivity.
  - clear - G. induction G as [|x y t t' [A B] _ IH]; cbn; [reflexivity|]. now rewrite A, IH.
Qed.
Lemma answers_alike e cb l :
  (forall s s' ev, unanswered s = unanswered s' -> same_answer ev (e_cb e s ev) (cb s' ev)) ->
  (forall s s' dc d, unanswered s = unanswered s' -> e_codec e s dc d = e_codec e s' dc d) ->
  fst (history (with_callbacks cb e) l) = fst (history e l) /\ unanswered (snd (history (with_callbacks cb e) l)) = unanswered (snd (history e l)).
Proof.
  intros B1 B2. unfold history.
  destruct (sim_run_ops e (with_callbacks cb e) (c_flush (e_cfg e)) same_answer (fun l => l)) with (l := l) (s1 := st_new) (s2 := st_new) as [E F].
  - exists (c_log_level (e_cfg e)). destruct e as [[] ? ? ? ?]. reflexivity.
  - reflexivity.
  - reflexivity.
  - intros ev x y [->|(N & A & B)]; [now left|right]. destruct A as [->| ->], B as [->| ->]; auto.
  - reflexivity.
  - intros s1 s2 ev H. apply B1. apply unanswered_R with (keep := fun l => l); auto.
  - intros s1 s2 dc d H. symmetry. apply B2. apply unanswered_R with (keep := fun l => l); auto.
  - reflexivity.
  - exists []. split; [reflexivity|constructor].
  - split; [exact E|]. symmetry. eapply unanswered_R; [|exact F]. reflexivity.
Qed.

(** * C70 *)
Definition is_unfinished (t : tx) : bool := is_started t && negb (is_complete t).
Lemma prog_neq p q : prog_eqb p q = false <-> p <> q.
Proof. destruct p, q; (split; [intros H E; try discriminate E; vm_compute in H; discriminate H|intro H; try reflexivity; now contradiction H]). Qed.
Lemma unfinished_b t : is_unfinished t = true <->
  (t_prog (x_req t) <> PNotStarted \/ t_prog (x_resp t) <> PNotStarted) /\ (t_prog (x_req t) <> PComplete \/ t_prog (x_resp t) <> PComplete).
Proof.
  unfold is_unfinished, is_started, is_complete. rewrite andb_true_iff, !negb_true_iff, !andb_false_iff, !prog_neq. reflexivity.
Qed.
Definition flush_one (e : env) (i : N) : M unit :=
  ignore (tx_hook HTransactionComplete i) ;; when (c_auto_destroy (e_cfg e)) (modify (fun s => set_s_txs (tx_del i (s_txs s)) s)).
Lemma flush_each e is : forall s, NoDup is -> NoDup (map fst (s_txs s)) -> (forall i, In i is -> tx_get i (s_txs s) <> None) ->
  exists new X, for_each (flush_one e) is e s = (ROk tt, set_s_txs X (set_s_trace (rev new ++ s_trace s) s)) /\
  map fst new = map (fun i => mk_ev HTransactionComplete i PlNone) is /\
  (c_auto_destroy (e_cfg e) = false -> X = s_txs s) /\
  (c_auto_destroy (e_cfg e) = true -> forall i, tx_get i X = if existsb (N.eqb i) is then None else tx_get i (s_txs s)).
Proof.
  induction is as [|i is IH]; intros s Nd Nk H.
  - exists [], (s_txs s). cbn. split; [destruct s; reflexivity|]. repeat split; auto.
  - apply NoDup_cons_iff in Nd as [Ni Nd]. cbn [for_each]. unfold bind at 1. unfold flush_one at 1, bind at 1, ignore, tx_hook, bind at 1, get.
    destruct (tx_get i (s_txs s)) as [t|] eqn:E; [|exfalso; apply (H i); [now left|exact E]].
    set (ev := mk_ev HTransactionComplete i PlNone). unfold bind at 1, call. fold ev. set (r := e_cb e s ev). set (s1 := set_s_trace ((ev, r) :: s_trace s) s).
    assert (C : exists x, (check r e s1) = (x, s1) /\ (x = ROk tt \/ exists y, x = RErr y)) by (unfold check; destruct r; eexists; (split; [reflexivity|]); eauto).
    destruct C as (x & -> & C). set (X1 := if c_auto_destroy (e_cfg e) then tx_del i (s_txs s) else s_txs s).
    set (s2 := set_s_txs X1 s1).
    assert (W : when (c_auto_destroy (e_cfg e)) (modify (fun s => set_s_txs (tx_del i (s_txs s)) s)) e s1 = (ROk tt, s2)).
    { unfold when, s2, X1, s1, modify, ret. destruct (c_auto_destroy (e_cfg e)); [reflexivity|]. destruct s; reflexivity. }
    destruct (IH s2) as (new & X & F & G & K1 & K2); [exact Nd| | |].
    { cbn [s2 s_txs set_s_txs]. unfold X1. destruct (c_auto_destroy _); [now apply keys_del|exact Nk]. }
    { intros j Hj. cbn [s2 s_txs set_s_txs]. unfold X1. destruct (c_auto_destroy _); [rewrite tx_get_del; [|intros ->; contradiction]|]; apply H; now right. }
    exists ((ev, r) :: new), X.
    assert (Q : (match x with ROk _ | RErr _ => (ROk tt, s1) | RPanic => (RPanic, s1) | RFuel => (@RFuel unit, s1) end) = (ROk tt, s1)) by (destruct C as [->|(y & ->)]; reflexivity).
    split; [|split; [cbn; now rewrite G|split]].
    + replace (match (match x with ROk _ | RErr _ => _ | RPanic => _ | RFuel => _ end) with (ROk _, s') => _ | (RErr x0, s') => _ | (RPanic, s') => _ | (RFuel, s') => _ end) with (@ROk unit tt, s2).
      * cbn [rev]. rewrite <- app_assoc. cbn [app]. exact F.
      * rewrite <- W. destruct C as [->|(y & ->)]; reflexivity.
    + intro A. rewrite (K1 A). cbn [s2 s_txs set_s_txs]. unfold X1. now rewrite A.
    + intros A j. rewrite (K2 A j). cbn [s2 s_txs set_s_txs existsb]. unfold X1. rewrite A.
      destruct (N.eqb_spec j i) as [->|N]; cbn [orb].
      * rewrite get_del by exact Nk. now destruct (existsb _ is).
      * rewrite tx_get_del by exact N. reflexivity.
Qed.
Lemma filter_keys (P : tx -> bool) l i : NoDup (map fst l) -> In i (map fst (filter (fun it => P (snd it)) l)) <-> exists t, tx_get i l = Some t /\ P t = true.
Proof.
  induction l as [|[j t] l IH]; intro Nd; cbn [map filter tx_get fst snd] in *; [split; [easy|now intros (t & H & _)]|].
  apply NoDup_cons_iff in Nd as [Nj Nd]. destruct (N.eqb_spec i j) as [->|N].
  - split.
    + destruct (P t) eqn:E; [intros _; eauto|]. intro H. exfalso. apply Nj. rewrite in_map_iff in *. destruct H as (x & E1 & E2). apply filter_In in E2 as [E2 _]. eauto.
    + intros (t' & [= ->] & ->). now left.
  - rewrite <- IH by exact Nd. destruct (P t); cbn [map In fst]; [|reflexivity]. split; [intros [H|H]; [congruence|exact H]|now right].
Qed.
Lemma filter_keys_nodup (P : N * tx -> bool) l : NoDup (map fst l) -> NoDup (map fst (filter P l)).
Proof.
  induction l as [|[j t] l IH]; intro Nd; cbn [map filter fst] in *; [constructor|]. apply NoDup_cons_iff in Nd as [Nj Nd].
  destruct (P (j, t)); cbn [map fst]; [constructor|]; auto. intro H. apply Nj. rewrite in_map_iff in *. destruct H as (x & E1 & E2). apply filter_In in E2 as [E2 _]. eauto.
Qed.
Definition closing : M sstate := close_status SReq ;; close_status SResp ;; data_call SReq pd_default ;; data_call SResp pd_default.
Lemma close_split e s : run_op OpClose e s =
  match closing e s with
  | (ROk _, s1) => match when (c_flush (e_cfg e)) flush_incomplete_transactions e s1 with (ROk _, s2) => (ROk None, s2) | (RErr x, s2) => (RErr x, s2) | (RPanic, s2) => (RPanic, s2) | (RFuel, s2) => (RFuel, s2) end
  | (RErr x, s1) => (RErr x, s1) | (RPanic, s1) => (RPanic, s1) | (RFuel, s1) => (RFuel, s1)
  end.
Proof.
  cbn [run_op]. unfold closing, bind, ask. destruct (close_status SReq e s) as [[] s1]; try reflexivity. destruct (close_status SResp e s1) as [[] s2]; try reflexivity.
  destruct (data_call SReq pd_default e s2) as [[] s3]; try reflexivity.
Qed.
Lemma closing_same e b s : closing (with_flush b e) s = closing e s.
Proof.
  assert (S : sim e (with_flush b e) (fun _ x y => x = y) (fun l => l) closing closing).
  { unfold closing.
    assert (C : exists L, e_cfg (with_flush b e) = set_c_flush b (set_c_log_level L (e_cfg e))) by (exists (c_log_level (e_cfg e)); destruct e as [[] ? ? ? ?]; reflexivity).
    assert (Q : forall s1 s2, R (fun _ x y => x = y) (fun l => l) s1 s2 -> s2 = s1).
    { intros s1 s2 (t & -> & G). apply same_trace in G. subst t. destruct s1; reflexivity. }
    assert (D : forall sd c, sim e (with_flush b e) (fun _ x y => x = y) (fun l => l) (data_call sd c) (data_call sd c)).
    { intros sd c. apply sim_data_call with (b := b); auto.
      - intros s1 s2 ev H. now rewrite (Q _ _ H).
      - intros s1 s2 dc d H. now rewrite (Q _ _ H). }
    assert (W : forall sd, sim e (with_flush b e) (fun _ x y => x = y) (fun l => l) (close_status sd) (close_status sd)).
    { intro sd. apply sim_bind; [apply sim_get_d|intro; apply sim_when; apply sim_upd_d]. }
    apply sim_bind; [apply W|intro]. apply sim_bind; [apply W|intro]. apply sim_bind; [apply D|intro; apply D]. }
  destruct (S s s) as [E (t & F & G)]. { exists (s_trace s). split; [destruct s; reflexivity|apply alike_refl]. }
  apply same_trace in G. subst t. rewrite (surjective_pairing (closing (with_flush b e) s)), E, F. destruct (closing e s) as [r s1]. cbn [fst snd]. f_equal.
  destruct s1; reflexivity.
Qed.
Lemma close_flushes e l : Forall valid_op l -> c_flush (e_cfg e) = true ->
  exists s1 new is X,
    run_op OpClose (with_flush false e) (snd (history e l)) = (ROk None, s1) /\
    run_op OpClose e (snd (history e l)) = (ROk None, set_s_txs X (set_s_trace (rev new ++ s_trace s1) s1)) /\
    NoDup is /\ (forall i, In i is <-> unfinished s1 i) /\ map fst new = map (fun i => mk_ev HTransactionComplete i PlNone) is /\
    (c_auto_destroy (e_cfg e) = false -> X = s_txs s1) /\
    (c_auto_destroy (e_cfg e) = true -> forall i, (unfinished s1 i -> tx_get i X = None) /\ (~ unfinished s1 i -> tx_get i X = tx_get i (s_txs s1))).
Proof.
  intros V F. set (s := snd (history e l)). 
  assert (K : NoDup (map fst (s_txs s))) by (apply (keys_run l e st_new); constructor).
  destruct (history_ok e l V) as (r & s' & H & _). assert (Es : s' = s) by (unfold s; now rewrite H). rewrite Es in H. clear s' Es. clearbody s.
  destruct (history_ok e (l ++ [OpClose])) as (r' & s' & H' & _). { apply Forall_app. split; [exact V|repeat constructor]. }
  assert (C : run_op OpClose e s = (ROk None, s')).
  { unfold history in *. clear - H H'. revert r r' H H'. generalize st_new. revert s. induction l as [|o l IH]; intros s0 s1 r r' H H'; cbn [app run_ops] in *.
    - injection H as <- <-. unfold bind in H'. destruct (run_op OpClose e s1) as [[x| | |] s2] eqn:E; cbn in H'; try discriminate. injection H' as <- <-.
      rewrite close_split in E. destruct (closing e s1) as [[] ?]; try discriminate. destruct (when _ _ e _) as [[] ?]; try discriminate. congruence.
    - unfold bind in *. destruct (run_op o e s1) as [[x| | |] s2]; try discriminate.
      destruct (run_ops l e s2) as [[y| | |] s3] eqn:E1; try discriminate. destruct (run_ops (l ++ [OpClose]) e s2) as [[z| | |] s4] eqn:E2; try discriminate.
      injection H as <- <-. injection H' as <- <-. eapply IH; eauto. }
  assert (C' := C). rewrite close_split in C'. pose proof (close_split (with_flush false e) s) as D. rewrite closing_same in D.
  destruct (closing e s) as [[x| | |] s1]; try discriminate. cbn [with_flush e_cfg c_flush set_c_flush when ret] in D. rewrite F in C'. cbn [when] in C'.
  assert (K1 : NoDup (map fst (s_txs s1))).
  { pose proof (keys_run [OpClose] (with_flush false e) s K) as K1. cbn [run_ops] in K1. unfold bind in K1. rewrite D in K1. exact K1. }
  set (is := map fst (filter (fun it => is_started (snd it) && negb (is_complete (snd it))) (s_txs s1))) in *.
  assert (I : forall i, In i is <-> unfinished s1 i).
  { intro i. unfold is. rewrite (filter_keys is_unfinished) by exact K1. unfold unfinished. split; intros (t & A & B); exists t; (split; [exact A|]); now apply unfinished_b. }
  destruct (flush_each e is s1) as (new & X & E & G & X1 & X2); [now apply filter_keys_nodup|exact K1| |].
  { intros i Hi. apply I in Hi as (t & -> & _). discriminate. }
  unfold flush_incomplete_transactions, bind, ask, get in C'. fold is in C'. change (fun i => _) with (flush_one e) in C'. rewrite E in C'. injection C' as <-.
  exists s1, new, is, X. split; [exact D|]. split; [exact C|]. split; [now apply filter_keys_nodup|]. split; [exact I|]. split; [exact G|]. split; [exact X1|].
  intros A i. rewrite (X2 A i), <- I. destruct (existsb (N.eqb i) is) eqn:Ex.
  - split; [reflexivity|]. intro Q. exfalso. apply Q. apply existsb_exists in Ex as (j & Hj & ->%N.eqb_eq). exact Hj.
  - split; [|reflexivity]. intro Q. exfalso. assert (existsb (N.eqb i) is = true) by (apply existsb_exists; exists i; split; [exact Q|apply N.eqb_refl]). congruence.
Qed.
