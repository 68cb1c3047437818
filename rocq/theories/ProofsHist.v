(** Whole histories: stickiness, counters, the transaction table, refused calls. *)
From Coq Require Import Relations.
From Verif Require Import Base ModelState ModelTx ModelConn Spec SpecConn.
From Verif Require Import ProofsBase ProofsConn ProofsCore ProofsStep ProofsLoop.

(** * The loop does not depend on its fuel *)
Lemma data_loop_more sd e n : forall s, fst (data_loop sd n e s) <> RFuel -> forall k, data_loop sd (n + k) e s = data_loop sd n e s.
Proof.
  induction n as [|n IH]; intros s H k; [contradiction H; reflexivity|]. cbn [data_loop plus] in *. unfold bind in *.
  destruct (step sd e s) as [[[x|]|x| |] s']; try reflexivity. apply IH, H.
Qed.

(** * Relations kept by everything in a data call *)
Record kept_by (R : env -> st -> st -> Prop) : Prop := {
  kb_refl : forall e s, R e s s;
  kb_trans : forall e a b c, R e a b -> R e b c -> R e a c;
  kb_log : forall lv c, stable R (log lv c);
  kb_call : forall h i d, stable R (call h i d);
  kb_cur : forall sd, stable R (cur_tx sd);
  kb_put : forall i t, stable R (put_tx i t);
  kb_upd : forall sd f, stable R (upd_d sd f);
  kb_inp : forall f, stable R (modify (fun s => set_s_input (f s) s));
  kb_flags : forall n, stable R (modify (fun s => set_s_cflags (N.lor (s_cflags s) n) s));
  kb_idx : stable R (modify (fun s => set_s_chunk_idx (s_chunk_count s) s));
  kb_other : forall b, stable R (modify (set_s_other_at_end b));
  kb_free : forall i, stable R (check_free i);
  kb_rnext : stable R (modify (fun s => set_s_ridx (wadd (s_ridx s) 1) s));
  kb_pnext : stable R (modify (fun s => set_s_pidx (wadd (s_pidx s) 1) s)) }.
Section Kept.
Variable R : env -> st -> st -> Prop.
Hypothesis K : kept_by R.
Lemma kept_loop sd n : stable R (data_loop sd n).
Proof. apply m_data_loop; apply K. Qed.
Lemma kept_mark_gap sd : stable R (mark_gap sd).
Proof. apply m_mark_gap; apply K. Qed.
Lemma kept_close sd : stable R (close_status sd).
Proof. apply m_close_status; apply K. Qed.
Hypothesis C : forall sd n, stable R (modify (count_data sd n)).
Lemma kept_data_call sd p : stable R (data_call sd p).
Proof. apply m_data_call; try apply K. exact C. Qed.
Hypothesis D : forall i, stable R (modify (fun s => set_s_txs (tx_del i (s_txs s)) s)).
Lemma kept_run_op o : stable R (run_op o).
Proof. apply m_run_op; try apply K; [exact C|exact D]. Qed.
Lemma kept_run_ops l : stable R (run_ops l).
Proof. apply m_run_ops; try apply K; [exact C|exact D]. Qed.
End Kept.

(** A relation on parts of the state that only [cur_tx], [put_tx], [check_free] and the index moves touch. *)
Ltac by_parts refl :=
  constructor;
  [ | | intros lv c e s; unfold log; cbn [snd]; destruct (_ <=? _); exact (refl e s)
  | intros h i d e s; exact (refl e s) | | | intros sd f e s; destruct sd; exact (refl e s) | intros f e s; exact (refl e s)
  | intros n e s; exact (refl e s) | intros e s; exact (refl e s) | intros b e s; exact (refl e s) | | | ].

(** * Counters *)
Definition same_counts (_ : env) (s s' : st) : Prop := s_in s' = s_in s /\ s_out s' = s_out s.
Lemma same_counts_kept : kept_by same_counts.
Proof.
  assert (Rf : forall e s, same_counts e s s) by (split; reflexivity).
  by_parts Rf; try (intros; split; reflexivity).
  - intros e a b c [H1 H2] [H3 H4]. split; congruence.
  - intros sd e s. unfold cur_tx. destruct (tx_get _ _); [apply Rf|]. destruct (_ <=? _); split; reflexivity.
  - intros i e s. unfold check_free. cbn [snd]. destruct (c_auto_destroy _); [|apply Rf].
    destruct (tx_get _ _) as [t|]; [|apply Rf]. destruct (is_complete t); split; reflexivity.
Qed.
Lemma chunk_len p : fresh p -> pd_len p = chunk_size p.
Proof.
  intros [H G]. unfold pd_len, chunk_size, pd_as_slice, pd_unconsumed. rewrite H. destruct (pd_gap p) as [g|].
  - destruct (g <=? 0) eqn:E; lia.
  - destruct (pd_data p) as [d|]; [|reflexivity]. destruct (0 <=? blen d) eqn:E; [|lia]. reflexivity.
Qed.
Lemma counts_side sd sd' n s : counter sd (count_data sd' n s) =
  if match sd, sd' with SReq, SReq | SResp, SResp => true | _, _ => false end then wadd (counter sd s) n else counter sd s.
Proof. destruct sd, sd'; reflexivity. Qed.

(** * A data call by the status of its stream *)
Definition offer (sd : side) (chunk : pdata) (s : st) : st := set_s_dir sd (set_d_consumed 0 (s_dir sd s)) (set_s_input chunk s).
Definition logged (lv : N) (c : string) (e : env) (s : st) : st := snd (log lv c e s).
Definition data_tail (sd : side) (chunk : pdata) : M sstate :=
  by_side sd (let* r := get_d SResp in when (sstate_eqb (d_status r) SsDataOther) (set_status SResp SsData)) (ret tt) ;;
  let* early := (if pd_is_gap chunk then mark_gap sd else ret None) in
  match early with
  | Some x => ret x
  | None => let* s := get in data_loop sd (loop_fuel sd s)
  end.
Lemma data_call_eval sd chunk e s : data_call sd chunk e s =
  match d_status (s_dir sd s) with
  | SsStop => (ROk SsStop, logged LvInfo "PARSER_STATE_ERROR" e (offer sd chunk s))
  | SsError => (ROk SsError, logged LvError "PARSER_STATE_ERROR" e (offer sd chunk s))
  | x => if pd_is_empty chunk && negb (sstate_eqb x SsClosed) then (ROk SsClosed, logged LvError "ZERO_LENGTH_DATA_CHUNKS" e (offer sd chunk s))
         else let s1 := count_data sd (pd_len chunk) (offer sd chunk s) in
              if sstate_eqb x SsTunnel then (ROk SsTunnel, s1) else data_tail sd chunk e s1
  end.
Proof.
  unfold data_call. unfold bind at 1, modify at 1. unfold bind at 1, upd_d at 1, modify at 1. unfold bind at 1, get_d at 1.
  replace (set_s_dir sd (set_d_consumed 0 (s_dir sd (set_s_input chunk s))) (set_s_input chunk s)) with (offer sd chunk s) by (destruct sd; reflexivity).
  replace (d_status (s_dir sd (offer sd chunk s))) with (d_status (s_dir sd s)) by (destruct sd; reflexivity).
  destruct (d_status (s_dir sd s)); cbv iota; try reflexivity.
  all: cbn [sstate_eqb negb]; rewrite ?andb_true_r, ?andb_false_r; destruct (pd_is_empty chunk); reflexivity.
Qed.
Lemma data_tail_kept R sd chunk : kept_by R -> stable R (data_tail sd chunk).
Proof.
  intros K. unfold data_tail.
  apply stable_bind; [apply K| |intros _; apply stable_bind; [apply K| |intros [y|]; [apply stable_ret, K|]]].
  - destruct sd; cbn [by_side]; [|apply stable_ret, K]. apply stable_bind; [apply K|apply stable_get_d, K|]. intro d.
    apply stable_when; [apply K|]. apply K.
  - destruct (pd_is_gap chunk); [apply kept_mark_gap, K|apply stable_ret, K].
  - apply stable_bind; [apply K|apply stable_get, K|]. intro s2. apply kept_loop, K.
Qed.

Lemma counter_offer sd chunk s x : counter x (offer sd chunk s) = counter x s.
Proof. destruct sd, x; reflexivity. Qed.
Lemma counter_logged lv c e s x : counter x (logged lv c e s) = counter x s.
Proof. unfold logged, log. cbn [snd]. destruct (_ <=? _), x; reflexivity. Qed.
Lemma data_call_counts e sd chunk s : fresh chunk ->
  (forall sd', sd' <> sd -> counter sd' (snd (data_call sd chunk e s)) = counter sd' s) /\
  counter sd (snd (data_call sd chunk e s)) mod 2 ^ 64 =
    ((if refusing (s_dir sd s) then 0 else chunk_size chunk) + counter sd s) mod 2 ^ 64.
Proof.
  intros F. rewrite data_call_eval, <- (chunk_len _ F).
  assert (L : forall lv c x, counter x (logged lv c e (offer sd chunk s)) = counter x s).
  { intros. now rewrite counter_logged, counter_offer. }
  assert (T : forall s1 x, counter x (snd (data_tail sd chunk e s1)) = counter x s1).
  { intros s1 x. pose proof (data_tail_kept _ sd chunk same_counts_kept e s1) as G. destruct x; apply G. }
  set (s1 := count_data sd (pd_len chunk) (offer sd chunk s)).
  assert (S1 : (forall sd', sd' <> sd -> counter sd' s1 = counter sd' s) /\ counter sd s1 mod 2 ^ 64 = (pd_len chunk + counter sd s) mod 2 ^ 64).
  { unfold s1. split; [intros x Hx|]; rewrite counts_side, counter_offer.
    - destruct sd, x; try congruence; reflexivity.
    - destruct sd; unfold wadd, u64_mod; rewrite N.mod_mod by discriminate; f_equal; lia. }
  unfold refusing. destruct (d_status (s_dir sd s)) eqn:Es; cbv zeta iota.
  all: try (cbn [snd]; split; [intros|]; rewrite L; reflexivity).
  all: cbn [sstate_eqb negb]; rewrite ?andb_true_r, ?andb_false_r.
  all: try (destruct (pd_is_empty chunk) eqn:Ee; [cbn [snd]; unfold pd_is_empty in Ee; apply N.eqb_eq in Ee; rewrite Ee; split; [intros|]; rewrite L; reflexivity|]).
  all: cbn [snd]; try exact S1.
  all: split; [intros x Hx; rewrite T; now apply S1|rewrite T; apply S1].
Qed.
Definition counts_fit (_ : env) (s s' : st) : Prop := forall sd, counter sd s < 2 ^ 64 -> counter sd s' < 2 ^ 64.
Lemma counts_fit_kept : kept_by counts_fit.
Proof.
  assert (I : forall e s s', same_counts e s s' -> counts_fit e s s').
  { intros e s s' [H1 H2] sd. destruct sd; cbn; congruence. }
  destruct same_counts_kept. unfold stable in *.
  constructor; unfold stable; [intros e s sd H; exact H|intros e a b c H1 H2 sd H; auto|..]; intros; apply I; auto.
Qed.
Lemma counts_fit_op o : stable counts_fit (run_op o).
Proof.
  apply kept_run_op; [exact counts_fit_kept| |].
  - intros sd n e s x. cbn [snd modify]. rewrite counts_side. intro H.
    destruct sd, x; cbn; try exact H; apply N.mod_upper_bound; discriminate.
  - intros i e s x. cbn. destruct x; auto.
Qed.
Lemma counts_close sd e s : same_counts e s (snd (close_status sd e s)).
Proof. apply (kept_close _ same_counts_kept). Qed.
Lemma counts_data_default e sd s x : refusing (s_dir sd s) = false -> counter x s < 2 ^ 64 -> counter x (snd (data_call sd pd_default e s)) mod 2 ^ 64 = counter x s mod 2 ^ 64.
Proof.
  intros R H. destruct (data_call_counts e sd pd_default s) as [A B]; [split; [reflexivity|cbn; congruence]|].
  destruct sd, x; try (rewrite A by discriminate; reflexivity); rewrite B; rewrite R; f_equal; cbn; lia.
Qed.
Lemma counts_data_default' e sd s x : counter x (snd (data_call sd pd_default e s)) mod 2 ^ 64 = counter x s mod 2 ^ 64.
Proof.
  destruct (data_call_counts e sd pd_default s) as [A B]; [split; [reflexivity|cbn; congruence]|].
  destruct sd, x; try (rewrite A by discriminate; reflexivity); rewrite B; f_equal; destruct (refusing _); cbn; lia.
Qed.
Lemma same_counts_flush : stable same_counts flush_incomplete_transactions.
Proof.
  pose proof same_counts_kept as K. unfold flush_incomplete_transactions.
  apply stable_bind; [apply K|apply stable_ask, K|]. intro e'. apply stable_bind; [apply K|apply stable_get, K|]. intro s'.
  apply stable_for_each; [apply K|apply K|]. intro i. apply stable_bind; [apply K| |].
  - apply stable_ignore. apply (c_tx_hook same_counts); apply K.
  - intros _. apply stable_when; [apply K|]. intros e s. split; reflexivity.
Qed.
Lemma run_op_counts e o s nq np sd : valid_op o -> sane e nq np s ->
  counter sd (snd (run_op o e s)) mod 2 ^ 64 =
  (match to_side sd o with Some c => if refusing (s_dir sd s) then 0 else chunk_size c | None => 0 end + counter sd s) mod 2 ^ 64.
Proof.
  intros V S. destruct (run_op_ok e o s nq np V S) as (x & s' & E & _). destruct o as [|c|c| | |i]; cbn [valid_op] in V.
  - replace (to_side sd OpOpen) with (@None pdata) by (destruct sd; reflexivity). f_equal. cbn [run_op]. unfold bind, get.
    destruct (_ && _); [destruct sd; reflexivity|]. unfold log. cbn [snd ret]. destruct (_ <=? _); destruct sd; reflexivity.
  - destruct (data_call_counts e SReq c s (fresh_chunk_fresh _ V)) as [A B].
    cbn [run_op] in *. unfold bind in *. destruct (data_call SReq c e s) as [[a|y| |] s1]; try discriminate. cbn [ret snd] in *.
    destruct sd; cbn [to_side]; [exact B|]. rewrite A by discriminate. reflexivity.
  - destruct (data_call_counts e SResp c s (fresh_chunk_fresh _ V)) as [A B].
    cbn [run_op] in *. unfold bind in *. destruct (data_call SResp c e s) as [[a|y| |] s1]; try discriminate. cbn [ret snd] in *.
    destruct sd; cbn [to_side]; [|exact B]. rewrite A by discriminate. reflexivity.
  - replace (to_side sd OpReqClose) with (@None pdata) by (destruct sd; reflexivity). cbn [run_op] in *. unfold bind in *.
    pose proof (counts_close SReq e s) as C1. destruct (close_status SReq e s) as [[a|y| |] s1]; try discriminate. cbn [snd] in C1.
    pose proof (counts_data_default' e SReq s1 sd) as C2. destruct (data_call SReq pd_default e s1) as [[b|y| |] s2]; try discriminate.
    cbn [ret snd] in *. rewrite C2. destruct C1 as [C1 C1']. f_equal. destruct sd; cbn; lia.
  - replace (to_side sd OpClose) with (@None pdata) by (destruct sd; reflexivity). cbn [run_op] in *. unfold bind, ask in *.
    pose proof (counts_close SReq e s) as C1. destruct (close_status SReq e s) as [[a|y| |] s1]; try discriminate. cbn [snd] in C1.
    pose proof (counts_close SResp e s1) as C2. destruct (close_status SResp e s1) as [[b|y| |] s2]; try discriminate. cbn [snd] in C2.
    pose proof (counts_data_default' e SReq s2 sd) as C3. destruct (data_call SReq pd_default e s2) as [[c|y| |] s3]; try discriminate. cbn [snd] in C3.
    pose proof (counts_data_default' e SResp s3 sd) as C4. destruct (data_call SResp pd_default e s3) as [[d|y| |] s4]; try discriminate. cbn [snd] in C4.
    assert (C5 : same_counts e s4 (snd (when (c_flush (e_cfg e)) flush_incomplete_transactions e s4))).
    { apply stable_when; [apply same_counts_kept|apply same_counts_flush]. }
    destruct (when _ _ e s4) as [[u|y| |] s5]; try discriminate. cbn [ret snd] in *.
    replace (counter sd s5) with (counter sd s4) by (destruct C5, sd; cbn; congruence). rewrite C4, C3. f_equal.
    destruct C1 as [C1 C1'], C2 as [C2 C2']. destruct sd; cbn; lia.
  - replace (to_side sd (OpRemove i)) with (@None pdata) by (destruct sd; reflexivity). destruct sd; reflexivity.
Qed.
Theorem counters_exact e sd l : forall s nq np, Forall valid_op l -> sane e nq np s ->
  counter sd (snd (run_ops l e s)) mod 2 ^ 64 = (accepted sd e s l + counter sd s) mod 2 ^ 64.
Proof.
  induction l as [|o l IH]; intros s nq np V S; [reflexivity|]. cbn [run_ops accepted]. unfold bind.
  inversion_clear V as [|? ? V1 V2]. pose proof (run_op_counts e o s nq np sd V1 S) as C.
  destruct (run_op_ok e o s nq np V1 S) as (x & s1 & E & S1). rewrite E in *. cbn [snd] in *.
  specialize (IH s1 _ _ V2 S1). destruct (run_ops_ok e l s1 _ _ V2 S1) as (r & s2 & E2 & _). rewrite E2 in *. cbn [ret snd] in *.
  rewrite IH, <- N.add_mod_idemp_r, C, N.add_mod_idemp_r by discriminate. f_equal. lia.
Qed.
Theorem history_counters e sd l : Forall valid_op l ->
  counter sd (snd (history e l)) = accepted sd e st_new l mod 2 ^ 64.
Proof.
  intro V. pose proof (counters_exact e sd l st_new 0 0 V (sane_new e)) as H. unfold history in *.
  assert (B : counter sd (snd (run_ops l e st_new)) < 2 ^ 64).
  { assert (K : stable counts_fit (run_ops l)).
    { clear. induction l as [|o l IH]; cbn [run_ops]; [apply stable_ret, counts_fit_kept|].
      apply stable_bind; [apply counts_fit_kept|apply counts_fit_op|]. intro x.
      apply stable_bind; [apply counts_fit_kept|exact IH|]. intro. apply stable_ret, counts_fit_kept. }
    apply (K e st_new sd). destruct sd; reflexivity. }
  rewrite N.mod_small in H by exact B. rewrite H. f_equal. destruct sd; cbn; lia.
Qed.

(** * The transaction table *)
Definition table_moves (e : env) (s s' : st) : Prop := table_run (e_cfg e) (table s) (table s').
Lemma table_moves_kept : kept_by table_moves.
Proof.
  assert (Rf : forall e s, table_moves e s s) by (intros; apply rt_refl).
  by_parts Rf.
  - exact Rf.
  - intros e a b c. apply rt_trans.
  - intros sd e s. unfold cur_tx. destruct (tx_get _ _) eqn:E; [apply Rf|]. destruct (_ <=? _) eqn:L; [apply Rf|].
    apply rt_step. apply TsBegin; [exact E|lia].
  - intros i t e s. apply rt_step. apply TsChange.
  - intros i e s. unfold check_free. cbn [snd]. destruct (c_auto_destroy _) eqn:A; [|apply Rf].
    destruct (tx_get _ _) as [t|] eqn:E; [|apply Rf]. destruct (is_complete t) eqn:Ec; [|apply Rf].
    apply rt_step. eapply TsDrop; eassumption.
  - intros e s. apply rt_step, TsRequest.
  - intros e s. apply rt_step, TsResponse.
Qed.
Theorem data_call_table e sd chunk s : table_run (e_cfg e) (table s) (table (snd (data_call sd chunk e s))).
Proof.
  apply (kept_data_call table_moves table_moves_kept). intros sd' n e' s'. destruct sd'; apply rt_refl.
Qed.

Lemma length_set i t l : length (tx_set i t l) = length l.
Proof. induction l as [|[j u] l IH]; cbn [tx_set]; [reflexivity|]. destruct (i =? j); cbn [length]; congruence. Qed.
Lemma length_put i t l : (length (tx_put i t l) <= S (length l))%nat.
Proof.
  induction l as [|[j u] l IH]; cbn [tx_put length]; [lia|]. destruct (i =? j); [cbn [length]; lia|].
  destruct (i <? j); cbn [length]; lia.
Qed.
Lemma length_del i l : (length (tx_del i l) <= length l)%nat.
Proof. induction l as [|[j u] l IH]; cbn [tx_del length]; [lia|]. destruct (i =? j); cbn [length]; lia. Qed.
Definition table_fits (e : env) (s s' : st) : Prop :=
  N.of_nat (length (s_txs s)) <= c_max_tx (e_cfg e) -> N.of_nat (length (s_txs s')) <= c_max_tx (e_cfg e).
Lemma table_fits_kept : kept_by table_fits.
Proof.
  assert (Rf : forall e s, table_fits e s s) by (intros e s H; exact H).
  by_parts Rf; unfold table_fits.
  - auto.
  - auto.
  - intros sd e s. unfold cur_tx. destruct (tx_get _ _) eqn:E; [auto|]. destruct (_ <=? _) eqn:L; [auto|]. cbn [snd s_txs set_s_txs].
    intros _. pose proof (length_put (s_idx sd s) tx_new (s_txs s)). lia.
  - intros i t e s. cbn. now rewrite length_set.
  - intros i e s. unfold check_free. cbn [snd]. destruct (c_auto_destroy _) eqn:A; [|auto].
    destruct (tx_get _ _) as [t|] eqn:E; [|auto]. destruct (is_complete t) eqn:Ec; [|auto]. cbn [s_txs set_s_txs].
    pose proof (length_del i (s_txs s)). lia.
  - intros e s. cbn. auto.
  - intros e s. cbn. auto.
Qed.
Theorem table_bounded e l : N.of_nat (length (s_txs (snd (history e l)))) <= c_max_tx (e_cfg e).
Proof.
  apply (kept_run_ops table_fits table_fits_kept).
  - intros sd n e' s' H. destruct sd; exact H.
  - intros i e' s' H. cbn. pose proof (length_del i (s_txs s')). lia.
  - cbn. lia.
Qed.

(** With auto-destroy off only the user removes a transaction. *)
Lemma tx_get_del i j l : i <> j -> tx_get i (tx_del j l) = tx_get i l.
Proof.
  intro N. induction l as [|[k u] l IH]; cbn [tx_del tx_get]; [reflexivity|]. destruct (j =? k) eqn:E1.
  - destruct (i =? k) eqn:E2; [lia|reflexivity].
  - cbn [tx_get]. destruct (i =? k); [reflexivity|exact IH].
Qed.
Definition live_stays (e : env) (s s' : st) : Prop := c_auto_destroy (e_cfg e) = false -> forall i, live i s -> live i s'.
Lemma live_stays_kept : kept_by live_stays.
Proof.
  assert (Rf : forall e s, live_stays e s s) by (intros e s _ i H; exact H).
  by_parts Rf; unfold live_stays.
  - auto.
  - auto.
  - intros sd e s _. apply inner_cur.
  - intros i t e s _. apply inner_put.
  - intros i e s A. unfold check_free. cbn [snd]. rewrite A. auto.
  - intros e s _ i. exact (fun H => H).
  - intros e s _ i. exact (fun H => H).
Qed.
Lemma live_stays_count sd n : stable live_stays (modify (count_data sd n)).
Proof. intros e s _ i H. destruct sd; exact H. Qed.
Lemma live_stays_op o : match o with OpRemove _ => True | _ => stable live_stays (run_op o) end.
Proof.
  pose proof live_stays_kept as K.
  assert (D : forall sd p, stable live_stays (data_call sd p)) by (intros; apply kept_data_call; [exact K|exact live_stays_count]).
  assert (B := fun A B => stable_bind live_stays (kb_trans _ K) A B). assert (Rt := fun A => stable_ret live_stays (kb_refl _ K) A).
  assert (Cl : forall sd, stable live_stays (close_status sd)) by (intro; apply kept_close, K).
  destruct o; [| | | | |exact I]; cbn [run_op].
  - apply B; [apply stable_get, K|]. intro s. apply B; [|intro; apply Rt]. destruct (_ && _); [|apply K].
    apply B; [apply K|intro; apply K].
  - apply B; [apply D|intro; apply Rt].
  - apply B; [apply D|intro; apply Rt].
  - apply B; [apply Cl|intro]. apply B; [apply D|intro; apply Rt].
  - apply B; [apply Cl|intro]. apply B; [apply Cl|intro]. apply B; [apply D|intro]. apply B; [apply D|intro].
    apply B; [apply stable_ask, K|intro e']. 
    intros e s A i H. unfold bind. 
    assert (W : live i (snd (when (c_flush (e_cfg e')) flush_incomplete_transactions e s))).
    { unfold when. destruct (c_flush _); [|exact H]. unfold flush_incomplete_transactions, ask, get. unfold bind at 1. unfold bind at 1.
      revert H. generalize (map fst (filter (fun it => is_started (snd it) && negb (is_complete (snd it))) (s_txs s))). intro l.
      rewrite A. unfold when. revert s. induction l as [|j l IH]; intros s H; [exact H|]. cbn [for_each]. unfold bind at 1. unfold bind at 1.
      assert (T : live i (snd (ignore (tx_hook HTransactionComplete j) e s))).
      { apply (stable_ignore live_stays); [apply (c_tx_hook live_stays); apply K|exact A|exact H]. }
      destruct (ignore _ e s) as [[u|y| |] s1]; cbn [snd] in T; try exact T. apply IH, T. }
    destruct (when _ _ e s) as [[u|y| |] s1]; cbn [snd ret] in *; exact W.
Qed.
Theorem live_stays_history e l1 l2 i : c_auto_destroy (e_cfg e) = false -> ~ In (OpRemove i) l2 ->
  live i (snd (history e l1)) -> live i (snd (run_ops l2 e (snd (history e l1)))).
Proof.
  intros A. generalize (snd (history e l1)). induction l2 as [|o l IH]; intros s N H; [exact H|].
  cbn [run_ops]. unfold bind at 1.
  assert (S : live i (snd (run_op o e s))).
  { pose proof (live_stays_op o) as K. destruct o; try (apply (K e s A i H)). cbn. unfold live. cbn.
    rewrite tx_get_del; [exact H|]. intros ->. apply N. now left. }
  assert (S' : live i (snd (run_ops l e (snd (run_op o e s))))).
  { apply IH; [|exact S]. intro H'. apply N. now right. }
  destruct (run_op o e s) as [[x|y| |] s1]; cbn [snd] in *; try exact S.
  unfold bind. destruct (run_ops l e s1) as [[x'|y| |] s2]; exact S'.
Qed.

(** * Callbacks and log messages are only ever added *)
Definition grows (_ : env) (s s' : st) : Prop :=
  (exists l, s_trace s' = l ++ s_trace s) /\ (exists l, s_logs s' = l ++ s_logs s).
Lemma grows_kept : kept_by grows.
Proof.
  assert (Rf : forall e s, grows e s s) by (intros e s; split; exists []; reflexivity).
  constructor.
  - exact Rf.
  - intros e a b c [[l1 H1] [l2 H2]] [[l3 H3] [l4 H4]]. split; [exists (l3 ++ l1)|exists (l4 ++ l2)]; rewrite <- app_assoc; congruence.
  - intros lv c e s. unfold log. cbn [snd]. destruct (_ <=? _); [|apply Rf]. split; [exists []; reflexivity|].
    exists [mk_log lv c]. reflexivity.
  - intros h i d e s. split; [|exists []; reflexivity]. eexists [_]. reflexivity.
  - intros sd e s. unfold cur_tx. destruct (tx_get _ _) eqn:E; [apply Rf|]. destruct (_ <=? _) eqn:L; [apply Rf|]. exact (Rf e s).
  - intros i t e s. exact (Rf e s).
  - intros sd f e s. destruct sd; exact (Rf e s).
  - intros f e s. exact (Rf e s).
  - intros n e s. exact (Rf e s).
  - intros e s. exact (Rf e s).
  - intros b e s. exact (Rf e s).
  - intros i e s. unfold check_free. cbn [snd]. destruct (c_auto_destroy _) eqn:A; [|exact (Rf e s)].
    destruct (tx_get _ _) as [t|] eqn:E; [|exact (Rf e s)]. destruct (is_complete t) eqn:Ec; exact (Rf e s).
  - intros e s. exact (Rf e s).
  - intros e s. exact (Rf e s).
Qed.

(** * Failed, closed and tunnelled streams *)
Lemma logged_parts lv c e s : s_txs (logged lv c e s) = s_txs s /\ s_trace (logged lv c e s) = s_trace s /\
  s_req (logged lv c e s) = s_req s /\ s_resp (logged lv c e s) = s_resp s /\ counter SReq (logged lv c e s) = counter SReq s /\
  counter SResp (logged lv c e s) = counter SResp s /\ s_ridx (logged lv c e s) = s_ridx s /\ s_pidx (logged lv c e s) = s_pidx s.
Proof. unfold logged, log. cbn [snd]. destruct (_ <=? _); repeat split; reflexivity. Qed.
(** A request stream that failed stays so, whatever comes. *)
Lemma data_call_error_stays e sd chunk s nq np : fresh chunk -> sane e nq np s ->
  d_status (s_req s) = SsError -> d_status (s_req (snd (data_call sd chunk e s))) = SsError.
Proof.
  intros F ((Bq & Nq) & (Bp & Np) & _) E. destruct sd.
  - rewrite data_call_eval. cbn [s_dir]. rewrite E. cbn [snd]. destruct (logged_parts LvError "PARSER_STATE_ERROR" e (offer SReq chunk s)) as (_ & _ & -> & _).
    exact E.
  - destruct (data_call_ok e SResp chunk s F Bp (fun H => False_ind _ (Np H))) as (x & s' & H & _ & _ & _ & _ & [_ S]).
    rewrite H. cbn [snd s_dir opp] in *. apply S; [reflexivity|exact E].
Qed.
Lemma run_op_error_stays e o s nq np : valid_op o -> sane e nq np s ->
  d_status (s_req s) = SsError -> d_status (s_req (snd (run_op o e s))) = SsError.
Proof.
  intros V S E. destruct (run_op_ok e o s nq np V S) as (x0 & s0 & E0 & _). destruct o as [|c|c| | |i]; cbn [valid_op run_op] in *.
  - unfold bind, get. rewrite E. cbn [sstate_eqb andb]. unfold log. cbn [ret snd]. destruct (_ <=? _); exact E.
  - pose proof (data_call_error_stays e SReq c s nq np (fresh_chunk_fresh _ V) S E) as H. unfold bind in *.
    destruct (data_call SReq c e s) as [[a|y| |] s1]; exact H.
  - pose proof (data_call_error_stays e SResp c s nq np (fresh_chunk_fresh _ V) S E) as H. unfold bind in *.
    destruct (data_call SResp c e s) as [[a|y| |] s1]; exact H.
  - assert (C1 : close_status SReq e s = (ROk tt, s)).
    { unfold close_status, bind, get_d, when. cbn [s_dir]. rewrite E. reflexivity. }
    unfold bind in *. rewrite C1 in *.
    pose proof (data_call_error_stays e SReq pd_default s nq np (fresh_chunk_fresh pd_default eq_refl) S E) as H.
    destruct (data_call SReq pd_default e s) as [[a|y| |] s1]; exact H.
  - assert (C1 : close_status SReq e s = (ROk tt, s)).
    { unfold close_status, bind, get_d, when. cbn [s_dir]. rewrite E. reflexivity. }
    unfold bind in *. rewrite C1 in *. destruct (close_status SResp e s) as [[a|y| |] s1] eqn:C2; try discriminate.
    assert (Q1 : d_status (s_req s1) = SsError /\ d_consumed (s_req s1) = d_consumed (s_req s) /\ bufsum (s_resp s1) = bufsum (s_resp s) /\
                 (d_status (s_resp s1) = SsClosed \/ d_status (s_resp s1) <> SsClosed)).
    { unfold close_status, bind, get_d, when, set_status, upd_d, modify in C2. cbn [s_dir] in C2.
      destruct (sstate_eqb (d_status (s_resp s)) SsError) eqn:Ex; cbn [negb ret] in C2; injection C2 as _ <-.
      - repeat split; try exact E. destruct (d_status (s_resp s)); (left; reflexivity) || (right; discriminate).
      - repeat split; try exact E. now left. }
    assert (Q2 : exists s2, data_call SReq pd_default e s1 = (ROk SsError, s2) /\ s_resp s2 = s_resp s1 /\ d_status (s_req s2) = SsError).
    { rewrite data_call_eval. cbn [s_dir]. destruct Q1 as [Q1 _]. rewrite Q1. eexists. split; [reflexivity|].
      destruct (logged_parts LvError "PARSER_STATE_ERROR" e (offer SReq pd_default s1)) as (_ & _ & -> & -> & _). split; [reflexivity|exact Q1]. }
    destruct Q2 as (s2 & Q2 & Q3 & Q4). rewrite Q2 in *.
    destruct (data_call_ok e SResp pd_default s2 (fresh_chunk_fresh pd_default eq_refl)) as (x & s3 & H & _ & _ & _ & _ & [_ St]).
    { cbn [s_dir]. rewrite Q3. destruct Q1 as (_ & _ & -> & _). destruct S as (_ & (S & _) & _). exact S. }
    { intros _. reflexivity. }
    rewrite H in *. cbn [opp s_dir] in St. specialize (St eq_refl Q4). unfold ask in *.
    destruct (flush_ok e s3) as (s4 & F1 & F2 & F3).
    unfold when in *. destruct (c_flush (e_cfg e)); [rewrite F1 in *|]; cbn [ret snd] in *; [rewrite F2|]; exact St.
  - exact E.
Qed.
Lemma run_ops_error_stays e l : forall s nq np, Forall valid_op l -> sane e nq np s ->
  d_status (s_req s) = SsError -> d_status (s_req (snd (run_ops l e s))) = SsError.
Proof.
  induction l as [|o l IH]; intros s nq np V S E; [exact E|]. cbn [run_ops]. unfold bind. inversion_clear V as [|? ? V1 V2].
  pose proof (run_op_error_stays e o s nq np V1 S E) as C.
  destruct (run_op_ok e o s nq np V1 S) as (x & s1 & E1 & S1). rewrite E1 in *. cbn [snd] in *.
  specialize (IH s1 _ _ V2 S1 C). destruct (run_ops_ok e l s1 _ _ V2 S1) as (r & s2 & E2 & _). rewrite E2 in *. exact IH.
Qed.
Lemma same_logged lv c e sd chunk s : same_view s (logged lv c e (offer sd chunk s)).
Proof. unfold logged, log. cbn [snd]. destruct (_ <=? _), sd; repeat split; reflexivity. Qed.
Lemma failed_call e chunk s : d_status (s_req s) = SsError ->
  exists s', run_op (OpReq chunk) e s = (ROk (Some SsError), s') /\ same_view s s' /\ s_resp s' = s_resp s.
Proof.
  intros E. cbn [run_op]. unfold bind. rewrite data_call_eval. cbn [s_dir]. rewrite E. eexists. split; [reflexivity|].
  split; [apply same_logged|]. destruct (logged_parts LvError "PARSER_STATE_ERROR" e (offer SReq chunk s)) as (_ & _ & _ & -> & _). reflexivity.
Qed.
(** What a call returned says how the stream is left, except that CLOSED and, for a gap, ERROR do not. *)
Lemma returned_status e sd chunk s nq np x s' : fresh_chunk chunk = true -> sane e nq np s ->
  data_call sd chunk e s = (ROk x, s') -> x = SsClosed \/ (x = SsError /\ pd_is_gap chunk = true) \/ d_status (s_dir sd s') = x.
Proof.
  intros F S H.
  assert (P : exists n m, (forall d, s_dir sd s = d -> bufsum d <= c_field_limit (e_cfg e)) /\ (d_status (s_dir sd s) <> SsClosed) /\ n + m = 0).
  { exists 0, 0. destruct S as ((A & B) & (C & D) & _). destruct sd; cbn [s_dir]; (split; [intros d <-|split]; [assumption|assumption|reflexivity]). }
  destruct P as (_ & _ & P & Q & _).
  destruct (data_call_ok e sd chunk s (fresh_chunk_fresh _ F) (P _ eq_refl) (fun H => False_ind _ (Q H))) as (x1 & s1 & H1 & H2 & _).
  rewrite H in H1. injection H1 as <- <-. destruct H2 as [H2|[H2|[H2 H3]]]; auto.
Qed.
Theorem request_error_sticky e l1 c l2 x r s1 : Forall valid_op l1 -> valid_op (OpReq c) -> Forall valid_op l2 ->
  pd_is_gap c = false ->
  run_ops [OpReq c] e (snd (history e l1)) = (ROk r, s1) -> r = [Some SsError] -> fresh_chunk x = true ->
  exists s2 r2 s3, run_ops l2 e s1 = (ROk r2, s2) /\ run_op (OpReq x) e s2 = (ROk (Some SsError), s3) /\ same_view s2 s3 /\ s_resp s3 = s_resp s2.
Proof.
  intros V1 V V2 G H -> Fx. destruct (history_ok e l1 V1) as (r0 & s & E & S). rewrite E in H. cbn [snd] in H.
  destruct (run_op_ok e (OpReq c) s _ _ V S) as (a & s1' & E1 & S1). cbn [run_ops] in H. unfold bind in H. rewrite E1 in H. cbn [ret] in H.
  injection H as -> ->. cbn [run_op] in E1. unfold bind in E1. destruct (data_call SReq c e s) as [[y|y| |] s'] eqn:D; try discriminate.
  injection E1 as -> ->. assert (Es : d_status (s_req s1) = SsError).
  { destruct (returned_status e SReq c s _ _ _ _ V S D) as [A|[[_ A]|A]]; [discriminate|congruence|exact A]. }
  destruct (run_ops_ok e l2 s1 _ _ V2 S1) as (r2 & s2 & E2 & _). exists s2, r2.
  pose proof (run_ops_error_stays e l2 s1 _ _ V2 S1 Es) as E3. rewrite E2 in E3. cbn [snd] in E3.
  destruct (failed_call e x s2 E3) as (s3 & A & B & C). exists s3. auto.
Qed.

(** Empty chunks and streams that are not parsed. *)
Lemma empty_call e sd chunk s : chunk_size chunk = 0 -> fresh_chunk chunk = true ->
  refusing (s_dir sd s) = false -> d_status (s_dir sd s) <> SsClosed ->
  exists s', data_call sd chunk e s = (ROk SsClosed, s') /\ same_view s s' /\
    s_dir sd s' = set_d_consumed 0 (s_dir sd s) /\ s_dir (opp sd) s' = s_dir (opp sd) s.
Proof.
  intros Z F R C. rewrite data_call_eval. assert (Em : pd_is_empty chunk = true).
  { unfold pd_is_empty. rewrite (chunk_len _ (fresh_chunk_fresh _ F)), Z. reflexivity. }
  rewrite Em. unfold refusing in R. exists (logged LvError "ZERO_LENGTH_DATA_CHUNKS" e (offer sd chunk s)).
  split; [destruct (d_status (s_dir sd s)); try discriminate; try congruence; reflexivity|]. split; [apply same_logged|].
  destruct (logged_parts LvError "ZERO_LENGTH_DATA_CHUNKS" e (offer sd chunk s)) as (_ & _ & A & B & _).
  destruct sd; cbn [s_dir opp]; rewrite ?A, ?B; split; reflexivity.
Qed.
Lemma refused_call e sd chunk s : refusing (s_dir sd s) = true ->
  exists s', data_call sd chunk e s = (ROk (d_status (s_dir sd s)), s') /\ same_view s s' /\
    s_dir sd s' = set_d_consumed 0 (s_dir sd s) /\ s_dir (opp sd) s' = s_dir (opp sd) s.
Proof.
  intros R. rewrite data_call_eval. unfold refusing in R. destruct (d_status (s_dir sd s)); try discriminate; eexists; (split; [reflexivity|]);
  (split; [apply same_logged|]); match goal with |- context [logged ?a ?b e ?c] => destruct (logged_parts a b e c) as (_ & _ & A & B & _) end;
  destruct sd; cbn [s_dir opp]; rewrite ?A, ?B; split; reflexivity.
Qed.
Lemma tunnel_call e sd chunk s : chunk_size chunk <> 0 -> fresh_chunk chunk = true -> d_status (s_dir sd s) = SsTunnel ->
  exists s', data_call sd chunk e s = (ROk SsTunnel, s') /\
    s_txs s' = s_txs s /\ seen s' = seen s /\ s_logs s' = s_logs s /\
    counter sd s' = (counter sd s + chunk_size chunk) mod 2 ^ 64 /\ counter (opp sd) s' = counter (opp sd) s /\
    s_dir sd s' = set_d_consumed 0 (s_dir sd s) /\ s_dir (opp sd) s' = s_dir (opp sd) s.
Proof.
  intros Z F T. rewrite data_call_eval, T. pose proof (chunk_len _ (fresh_chunk_fresh _ F)) as L. assert (Em : pd_is_empty chunk = false).
  { unfold pd_is_empty. rewrite L. lia. }
  rewrite Em. cbn [andb sstate_eqb]. eexists. split; [reflexivity|]. rewrite L.
  destruct sd; repeat split; reflexivity.
Qed.

(** * The number of iterations *)
Lemma data_call_split sd chunk e s : data_call sd chunk e s =
  (let* o := begin_call sd chunk in match o with Some x => ret x | None => let* s := get in data_loop sd (loop_fuel sd s) end) e s.
Proof.
  unfold data_call, begin_call, get_d, upd_d, bind, modify. cbv beta iota.
  match goal with |- context [d_status ?x] => destruct (d_status x) end; try reflexivity.
  all: destruct (_ && _); try reflexivity.
  all: cbn [sstate_eqb]; try reflexivity.
  all: unfold ret, get, modify, count_data, by_side.
  all: destruct sd; destruct (pd_is_gap chunk); try reflexivity.
  all: match goal with |- context [when ?a ?b ?c ?d] => destruct (when a b c d) as [[u|y'| |] s'] end; try reflexivity.
Qed.
Lemma loops_fuel sd e n : forall s x s', loops sd e n s x s' -> data_loop sd n e s = (ROk x, s').
Proof.
  intros s x s' H. induction H as [s x s' H|s s1 n x s' H H1 IH]; cbn [data_loop]; unfold bind; rewrite H; [reflexivity|exact IH].
Qed.
Lemma fuel_loops sd e n : forall s x s', data_loop sd n e s = (ROk x, s') -> exists k, (k <= n)%nat /\ loops sd e k s x s'.
Proof.
  induction n as [|n IH]; intros s x s' H; [discriminate|]. cbn [data_loop] in H. unfold bind in H.
  destruct (step sd e s) as [[[y|]|y| |] s1] eqn:E; try discriminate.
  - injection H as <- <-. exists 1%nat. split; [lia|]. now constructor.
  - destruct (IH _ _ _ H) as (k & L & K). exists (S k). split; [lia|]. econstructor; eassumption.
Qed.
Definition same_load (sd : side) (_ : env) (s s' : st) : Prop :=
  s_input s' = s_input s /\ d_buf (s_dir sd s') = d_buf (s_dir sd s).
Lemma begin_load sd chunk e s o s1 : begin_call sd chunk e s = (o, s1) ->
  s_input s1 = chunk /\ d_buf (s_dir sd s1) = d_buf (s_dir sd s).
Proof.
  intro H.
  assert (Lg : forall lv c (x : option sstate) s', s_input s' = chunk /\ d_buf (s_dir sd s') = d_buf (s_dir sd s) ->
    (log lv c ;; ret x) e s' = (o, s1) -> s_input s1 = chunk /\ d_buf (s_dir sd s1) = d_buf (s_dir sd s)).
  { intros lv c x s' P. unfold bind, log, ret. destruct (_ <=? _); intros [= _ <-]; destruct sd; exact P. }
  assert (Cur : forall s', s_input s' = chunk /\ d_buf (s_dir sd s') = d_buf (s_dir sd s) ->
     s_input (snd (cur_tx sd e s')) = chunk /\ d_buf (s_dir sd (snd (cur_tx sd e s'))) = d_buf (s_dir sd s)).
  { intros s' P. unfold cur_tx. destruct (tx_get _ _); [exact P|]. destruct (_ <=? _); [exact P|]. destruct sd; exact P. }
  assert (Md : forall f s', s_input s' = chunk /\ d_buf (s_dir sd s') = d_buf (s_dir sd s) ->
     s_input (snd (mod_tx sd f e s')) = chunk /\ d_buf (s_dir sd (snd (mod_tx sd f e s'))) = d_buf (s_dir sd s)).
  { intros f s' P. unfold mod_tx, the_tx, bind. pose proof (Cur s' P) as C. destruct (cur_tx sd e s') as [[[t|]|y| |] s2]; exact C. }
  unfold begin_call, upd_d, get_d in H. unfold bind at 1, modify at 1 in H. unfold bind at 1, modify at 1 in H. unfold bind at 1 in H.
  set (s0 := set_s_dir sd _ _) in H.
  assert (P : s_input s0 = chunk /\ d_buf (s_dir sd s0) = d_buf (s_dir sd s)) by (destruct sd; split; reflexivity).
  clearbody s0. revert H. set (y := d_status (s_dir sd s0)). clearbody y. intro H.
  assert (Rest : forall s', s_input s' = chunk /\ d_buf (s_dir sd s') = d_buf (s_dir sd s) ->
    (by_side sd (let* r := get_d SResp in when (sstate_eqb (d_status r) SsDataOther) (set_status SResp SsData)) (ret tt) ;;
     (if pd_is_gap chunk then mark_gap sd else ret None)) e s' = (o, s1) -> s_input s1 = chunk /\ d_buf (s_dir sd s1) = d_buf (s_dir sd s)).
  { intros s' P'. unfold bind at 1.
    assert (Q : exists s2, by_side sd (let* r := get_d SResp in when (sstate_eqb (d_status r) SsDataOther) (set_status SResp SsData)) (ret tt) e s' = (ROk tt, s2) /\
       s_input s2 = chunk /\ d_buf (s_dir sd s2) = d_buf (s_dir sd s)).
    { destruct sd; cbn [by_side]; [|eexists; split; [reflexivity|exact P']]. unfold bind, get_d, when. clear H. destruct (sstate_eqb (d_status (s_dir SResp s')) SsDataOther); eexists; (split; [reflexivity|exact P']). }
    destruct Q as (s2 & -> & P2). destruct (pd_is_gap chunk); [|intros [= _ <-]; exact P2].
    unfold mark_gap. unfold bind at 1, get at 1. unfold bind at 1. pose proof (Cur s2 P2) as C. destruct (cur_tx sd e s2) as [[[t|]|z| |] s3]; cbn [snd] in C;
      try (intros [= _ <-]; exact C).
    unfold bind at 1. pose proof (Md (add_flag (by_side sd REQUEST_MISSING_BYTES RESPONSE_MISSING_BYTES)) s3 C) as D.
    destruct (mod_tx sd _ e s3) as [[u|z| |] s4]; cbn [snd] in D; try (intros [= _ <-]; exact D).
    destruct ((s_ridx s2 =? 0) && _); [|unfold ret; cbv beta; intros [= _ <-]; exact D]. unfold bind at 1, set_progress, mod_txd.
    pose proof (Md (upd_dir sd (set_t_prog PGap)) s4 D) as E.
    destruct (mod_tx sd _ e s4) as [[v|z| |] s5]; cbn [snd] in E; try (intros [= _ <-]; exact E).
    unfold set_status, upd_d, modify, ret, bind. cbv beta iota. intros [= _ <-]. destruct sd; exact E. }
  destruct y; try exact (Lg _ _ _ _ P H).
  all: destruct (_ && _); [exact (Lg _ _ _ _ P H)|].
  all: unfold bind at 1, modify at 1 in H.
  all: assert (P1 : s_input (count_data sd (pd_len chunk) s0) = chunk /\ d_buf (s_dir sd (count_data sd (pd_len chunk) s0)) = d_buf (s_dir sd s))
    by (destruct sd; exact P).
  all: cbn [sstate_eqb] in H; try exact (Rest _ P1 H).
  injection H as _ <-. exact P1.
Qed.
Theorem loop_linear e l sd chunk : Forall valid_op l -> fresh_chunk chunk = true ->
  let s := snd (history e l) in
  exists o s1, begin_call sd chunk e s = (ROk o, s1) /\
    match o with
    | Some x => data_call sd chunk e s = (ROk x, s1)
    | None => exists n x s2, loops sd e n s1 x s2 /\ data_call sd chunk e s = (ROk x, s2) /\
                N.of_nat n <= 16 * (chunk_size chunk + 2 * c_field_limit (e_cfg e) + 2)
    end.
Proof.
  intros V F s. subst s. destruct (history_ok e l V) as (r & s & E & S). rewrite E. cbn [snd].
  assert (P : bufsum (s_dir sd s) <= c_field_limit (e_cfg e) /\ d_status (s_dir sd s) <> SsClosed).
  { destruct S as (A & B & _). destruct sd; assumption. }
  destruct P as [P Q].
  destruct (data_call_ok e sd chunk s (fresh_chunk_fresh _ F) P (fun H => False_ind _ (Q H))) as (x & s' & H & _).
  pose proof H as H0. rewrite data_call_split in H. unfold bind at 1 in H. rewrite H0.
  destruct (begin_call sd chunk e s) as [[o|y| |] s1] eqn:B; try discriminate. exists o, s1. split; [reflexivity|].
  destruct o as [y|]; [exact (eq_sym H)|]. unfold bind, get in H. destruct (fuel_loops _ _ _ _ _ _ H) as (n & Ln & Lp).
  exists n, x, s'. split; [exact Lp|]. split; [reflexivity|].
  destruct (begin_load _ _ _ _ _ _ B) as [I D]. unfold loop_fuel in Ln. rewrite I, D in Ln.
  assert (Lc : (length (pd_as_slice chunk) <= N.to_nat (chunk_size chunk))%nat).
  { pose proof (fresh_chunk_fresh _ F) as [Fp Fg]. unfold pd_as_slice, chunk_size, blen.
    unfold pd_unconsumed. destruct (pd_data chunk) as [d|] eqn:Dt; [|cbn; lia]. rewrite Fp. cbn [N.to_nat skipn]. destruct (_ <=? _); [|cbn; lia].
    destruct (pd_gap chunk) eqn:G; [|unfold blen; lia]. exfalso. unfold fresh_chunk in F. rewrite G, Dt in F. cbn in F. rewrite andb_false_r in F. discriminate. }
  assert (Lb : (length (d_buf (s_dir sd s)) <= N.to_nat (c_field_limit (e_cfg e)))%nat) by (unfold bufsum, blen in P; lia).
  lia.
Qed.

(** * Refused gaps *)
Lemma tx_get_put i t l : tx_get i (tx_put i t l) = Some t.
Proof.
  induction l as [|[j u] l IH]; cbn [tx_put tx_get]; [now rewrite N.eqb_refl|].
  destruct (i =? j) eqn:E; [cbn [tx_get]; now rewrite N.eqb_refl|]. destruct (i <? j); cbn [tx_get]; [now rewrite N.eqb_refl|]. now rewrite E.
Qed.
Lemma tx_get_put_other i j t l : i <> j -> tx_get i (tx_put j t l) = tx_get i l.
Proof.
  intro N. assert (E : (i =? j) = false) by lia. induction l as [|[k u] l IH]; cbn [tx_put tx_get]; [now rewrite E|].
  destruct (j =? k) eqn:F; [cbn [tx_get]; rewrite E; replace (i =? k) with false by lia; reflexivity|].
  destruct (j <? k); cbn [tx_get]; [now rewrite E|]. now rewrite IH.
Qed.
Lemma tx_get_set i t l : tx_get i l <> None -> tx_get i (tx_set i t l) = Some t.
Proof.
  induction l as [|[j u] l IH]; cbn [tx_set tx_get]; [congruence|].
  destruct (i =? j) eqn:E; intro H; cbn [tx_get]; rewrite E; [reflexivity|exact (IH H)].
Qed.
Lemma tx_get_set_other i j t l : i <> j -> tx_get i (tx_set j t l) = tx_get i l.
Proof.
  intro N. induction l as [|[k u] l IH]; cbn [tx_set tx_get]; [reflexivity|].
  destruct (j =? k) eqn:F; cbn [tx_get]; [|now rewrite IH]. replace (i =? k) with false by lia. reflexivity.
Qed.
Lemma mod_tx_eval sd f e s t : tx_get (s_idx sd s) (s_txs s) = Some t ->
  mod_tx sd f e s = (ROk tt, set_s_txs (tx_set (s_idx sd s) (f t) (s_txs s)) s).
Proof. intro H. unfold mod_tx, the_tx, cur_tx, bind. rewrite H. reflexivity. Qed.
Theorem refused_gap e sd chunk g s : pd_gap chunk = Some g -> g <> 0 -> fresh_chunk chunk = true ->
  (forall x, In x [SsStop; SsError; SsTunnel; SsClosed] -> d_status (s_dir sd s) <> x) ->
  ~ skips_gaps sd (d_state (s_dir sd s)) ->
  exists x s', data_call sd chunk e s = (ROk x, s') /\ same_but sd s s' /\
    let now := tx_get (s_idx sd s) (s_txs s') in
    let was := match tx_get (s_idx sd s) (s_txs s) with Some t => t | None => tx_new end in
    ((x = SsClosed /\ now = Some (told_missing sd was)) \/
     (x = SsError /\ s_ridx s = 0 /\ t_prog (x_dir sd was) = PNotStarted /\ now = Some (upd_dir sd (set_t_prog PGap) (told_missing sd was))) \/
     (x = SsError /\ now = None /\ s_txs s' = s_txs s /\ c_max_tx (e_cfg e) <= N.of_nat (length (s_txs s)))).
Proof.
  intros G Z F St Na. rewrite data_call_eval. pose proof (chunk_len _ (fresh_chunk_fresh _ F)) as L.
  assert (Em : pd_is_empty chunk = false) by (unfold pd_is_empty; rewrite L; unfold chunk_size; rewrite G; lia).
  rewrite Em. cbn [andb].
  set (s1 := count_data sd (pd_len chunk) (offer sd chunk s)).
  assert (T : exists x s', data_tail sd chunk e s1 = (ROk x, s') /\ same_but sd s s' /\
    let now := tx_get (s_idx sd s) (s_txs s') in
    let was := match tx_get (s_idx sd s) (s_txs s) with Some t => t | None => tx_new end in
    ((x = SsClosed /\ now = Some (told_missing sd was)) \/
     (x = SsError /\ s_ridx s = 0 /\ t_prog (x_dir sd was) = PNotStarted /\ now = Some (upd_dir sd (set_t_prog PGap) (told_missing sd was))) \/
     (x = SsError /\ now = None /\ s_txs s' = s_txs s /\ c_max_tx (e_cfg e) <= N.of_nat (length (s_txs s))))).
  { unfold data_tail.
    assert (Q : exists s2, by_side sd (let* r := get_d SResp in when (sstate_eqb (d_status r) SsDataOther) (set_status SResp SsData)) (ret tt) e s1 = (ROk tt, s2) /\
       seen s2 = seen s /\ s_txs s2 = s_txs s /\ d_state (s_dir sd s2) = d_state (s_dir sd s) /\ d_buf (s_dir sd s2) = d_buf (s_dir sd s) /\ s_input s2 = chunk /\
       s_idx sd s2 = s_idx sd s /\ s_ridx s2 = s_ridx s).
    { subst s1. destruct sd; cbn [by_side]; [|eexists; split; [reflexivity|]; repeat split; reflexivity]. unfold bind, get_d, when.
      destruct (sstate_eqb (d_status (s_dir SResp (count_data SReq (pd_len chunk) (offer SReq chunk s)))) SsDataOther); eexists; (split; [reflexivity|repeat split; reflexivity]). }
    destruct Q as (s2 & Q & Q1 & Q2 & Q3 & Q4 & Q5 & Q6 & Q7). unfold bind at 1. rewrite Q. clear Q.
    replace (pd_is_gap chunk) with true by (unfold pd_is_gap; rewrite G; reflexivity). unfold bind at 1.
    (* the current transaction *)
    assert (C : (exists t s3, cur_tx sd e s2 = (ROk (Some t), s3) /\ tx_get (s_idx sd s) (s_txs s3) = Some t /\
                   t = match tx_get (s_idx sd s) (s_txs s) with Some t => t | None => tx_new end /\
                   (forall i, i <> s_idx sd s -> tx_get i (s_txs s3) = tx_get i (s_txs s)) /\
                   seen s3 = seen s /\ d_state (s_dir sd s3) = d_state (s_dir sd s) /\ d_buf (s_dir sd s3) = d_buf (s_dir sd s) /\ s_input s3 = chunk /\
                   s_idx sd s3 = s_idx sd s) \/
                (cur_tx sd e s2 = (ROk None, s2) /\ tx_get (s_idx sd s) (s_txs s) = None /\ c_max_tx (e_cfg e) <= N.of_nat (length (s_txs s)))).
    { unfold cur_tx. rewrite Q6, Q2. destruct (tx_get (s_idx sd s) (s_txs s)) as [t|] eqn:E.
      - left. exists t, s2. rewrite Q2. split; [reflexivity|]. split; [exact E|]. split; [reflexivity|]. split; [reflexivity|]. auto 10.
      - destruct (c_max_tx (e_cfg e) <=? N.of_nat (length (s_txs s))) eqn:Mx; [right; split; [reflexivity|]; split; [reflexivity|lia]|].
        left. eexists tx_new, _. split; [reflexivity|]. cbn [s_txs set_s_txs]. split; [apply tx_get_put|]. split; [reflexivity|].
        split; [intros i Hi; now apply tx_get_put_other|]. destruct sd; auto 10. }
    unfold mark_gap. unfold bind at 1, get at 1. unfold bind at 1. destruct C as [(t & s3 & C & C1 & C2 & C3 & C4 & C5 & C6 & C7 & C8)|(C & C1 & C2)]; rewrite C.
    2:{ exists SsError, s2. split; [reflexivity|]. split; [split; [exact Q1|split; [now rewrite Q2|auto]]|]. right. right. rewrite Q2. auto. }
    unfold bind at 1. rewrite (mod_tx_eval sd _ e s3 t) by (rewrite C8; exact C1).
    set (s4 := set_s_txs _ s3).
    assert (W : tx_get (s_idx sd s) (s_txs s4) = Some (told_missing sd t)).
    { unfold s4. cbn [s_txs set_s_txs]. rewrite C8, tx_get_set by congruence. destruct sd; reflexivity. }
    assert (W' : forall i, i <> s_idx sd s -> tx_get i (s_txs s4) = tx_get i (s_txs s)).
    { intros i Hi. unfold s4. cbn [s_txs set_s_txs]. rewrite C8, tx_get_set_other by exact Hi. now apply C3. }
    assert (W2 : seen s4 = seen s /\ d_state (s_dir sd s4) = d_state (s_dir sd s) /\ d_buf (s_dir sd s4) = d_buf (s_dir sd s) /\ s_input s4 = chunk /\ s_idx sd s4 = s_idx sd s).
    { destruct sd; auto. }
    clearbody s4. destruct W2 as (W2 & W3 & W4 & W5 & W6). rewrite Q7.
    destruct ((s_ridx s =? 0) && _) eqn:B.
    - apply andb_true_iff in B. destruct B as [B1 B2]. unfold bind at 1, set_progress, mod_txd.
      rewrite (mod_tx_eval sd _ e s4 (told_missing sd t)) by (rewrite W6; exact W).
      unfold set_status, upd_d, modify, ret, bind. cbv beta iota. eexists SsError, _. split; [reflexivity|].
      split; [split; [destruct sd; exact W2|]; split; [|destruct sd; auto]|].
      + intros i Hi. replace (s_txs _) with (tx_set (s_idx sd s4) (upd_dir sd (set_t_prog PGap) (told_missing sd t)) (s_txs s4)) by (destruct sd; reflexivity).
        rewrite W6, tx_get_set_other by exact Hi. now apply W'.
      + right. left. split; [reflexivity|]. split; [lia|]. rewrite <- C2. split; [destruct (t_prog (x_dir sd t)); try discriminate; reflexivity|].
        replace (s_txs _) with (tx_set (s_idx sd s4) (upd_dir sd (set_t_prog PGap) (told_missing sd t)) (s_txs s4)) by (destruct sd; reflexivity).
        rewrite W6. apply tx_get_set. congruence.
    - unfold ret at 1. unfold bind at 1, get at 1.
      assert (Fu : exists n, loop_fuel sd s4 = S n) by (unfold loop_fuel; match goal with |- context [(16 * (?a + 2))%nat] => exists (16 * a + 31)%nat; lia end).
      destruct Fu as [n ->]. cbn [data_loop]. unfold bind at 1. unfold step. unfold bind at 1, input at 1. unfold bind at 1, get_d at 1.
      rewrite W5, W3. replace (pd_is_gap chunk) with true by (unfold pd_is_gap; rewrite G; reflexivity).
      replace (gap_allowed sd (d_state (s_dir sd s))) with false.
      2:{ symmetry. unfold skips_gaps in Na. destruct sd; destruct (d_state (s_dir _ s)); try reflexivity; exfalso; apply Na; auto. }
      cbn [andb negb]. unfold bind, log, ret. cbv beta iota. eexists SsClosed, _. split; [reflexivity|].
      destruct (_ <=? _); (split; [split; [exact W2|split; [exact W'|destruct sd; auto]]|left; rewrite <- C2; auto]). }
  destruct T as (x & s' & T1 & T2). exists x, s'. split; [|exact T2].
  destruct (d_status (s_dir sd s)); cbv iota; cbn [sstate_eqb negb andb]; try exact T1; exfalso;
  match goal with H : forall x, In x _ -> ?c <> x |- _ => exact (H c (ltac:(cbn; tauto)) eq_refl) end.
Qed.
