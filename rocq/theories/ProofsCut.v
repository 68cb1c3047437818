(** Requests that the end of the connection cuts off in their body. *)
From Verif Require Import ProofsUrl ProofsUri.
From Verif Require Import Base Spec SpecTx SpecConn SpecMsg SpecTwo SpecResp SpecConnect SpecCut ModelUtil ModelBstr ModelParsers ModelUrl ModelUri ModelHeaders ModelState ModelTx ModelConn ModelHook
  ProofsBase ProofsBstr ProofsParsers ProofsHeaders ProofsTx ProofsConn ProofsCore ProofsLoop ProofsHist ProofsQuiet ProofsEval ProofsBody ProofsHead ProofsFrame ProofsStream ProofsChunk ProofsTwoRuns ProofsMsg ProofsRStream ProofsRHead ProofsRMsg ProofsTalk ProofsConnect4 ProofsClose.

(** * Where the request parser waits *)
Definition in_body (s : st) : Prop :=
  (d_state (s_req s) = StIdentity /\ exists k, d_left (s_req s) = Some k) \/ d_state (s_req s) = StChunkedLength \/ d_state (s_req s) = StChunkedData \/ d_state (s_req s) = StChunkedDataEnd.
Lemma paused_cut {cfg} i C tr ms m x y z s : paused cfg i C tr ms y s -> (exists l, ms = l ++ [m]) -> good_message m -> content_text (m_content m) = x ++ y -> z <> [] -> coded_text (m_content m) = x ++ z ->
  ms = [m] /\ exists st t es, mile st None [] None i t (tr_of es tr) C s /\ in_body s /\ ready m (rq_lines (m_req m)) (blen (body_before (m_content m) (length x))) (blen x) t /\
    body_events cfg i m (body_before (m_content m) (length x)) es.
Proof.
  intros P (l0 & El0) Gm Ex Nz Ez. assert (Ey : y = z ++ match m_content m with Plain _ => [] | Chunked _ _ tr => block_text tr ++ [13; 10] end).
  { unfold content_text in Ex. rewrite Ez, <- app_assoc in Ex. symmetry. now apply app_inv_head in Ex. }
  assert (Lz : (0 < length z)%nat) by (destruct z; [congruence|cbn; lia]).
  assert (Ly : (length y <= length (content_text (m_content m)))%nat) by (rewrite Ex, app_length; lia).
  assert (Tl : forall l', (length y < length (texts (l' ++ [m])))%nat).
  { intro l'. unfold texts. rewrite map_app, concat_app. cbn [map concat]. rewrite app_nil_r, message_text_line. unfold after_line. rewrite !app_length. cbn [length]. lia. }
  assert (One : forall m0 ms0, m0 :: ms0 = l0 ++ [m] -> (length (texts ms0) <= length y)%nat -> m0 = m /\ ms0 = []).
  { intros m0 ms0 E L. destruct l0 as [|z0 l]; cbn [app] in E; injection E as -> ->; [now split|]. specialize (Tl l). lia. }
  remember y as Y0 eqn:EY in P. destruct P as [ms s Q|m0 ms p q s Eq Nq M|m0 ms ls1 ls2 p q t hs s El K Eq Nq Hp Eh M|m0 ms b1 b2 t es s Ec Nb Rd Be M L|m0 ms cs la trl ds l t es s Ec Ep Nl Rd Be M|m0 ms cs la trl ds ck l d1 d2 t es s Ec Ep Ed Nd Rd Be M L|m0 ms cs la trl ds ck l t es s Ec Ep Nd Rd Be M|m0 ms cs la trl ls1 ls2 p q t es hs s Ec El Eq Nq Hp Eh Rd Tp Be M|m0 m' ms p q t es s Eq Np Nq Rd Es M].
  - exfalso. specialize (Tl l0). rewrite <- El0, EY in Tl. lia.
  - exfalso. destruct (One _ _ El0) as [-> ->]; [rewrite <- EY, !app_length; lia|]. apply (f_equal (@length N)) in EY. unfold after_line in EY. rewrite !app_length in EY. cbn [length] in EY. lia.
  - exfalso. assert (0 < length q)%nat by (destruct q; [congruence|cbn; lia]). destruct (One _ _ El0) as [-> ->]; [rewrite <- EY, !app_length; lia|]. apply (f_equal (@length N)) in EY. rewrite !app_length in EY. lia.
  - destruct (One _ _ El0) as [-> ->]; [rewrite <- EY, !app_length; lia|]. split; [reflexivity|]. exists StIdentity, t, es. split; [exact M|]. split; [left; split; [exact (ml_state _ _ _ _ _ _ _ _ _ M)|eauto]|].
    rewrite Ec in Ex |- *. unfold content_text in Ex. cbn [coded_text body_before] in *. change (texts []) with (@nil N) in EY. rewrite app_nil_r in EY, Ex. rewrite <- EY in Ex.
    apply app_inv_tail in Ex as <-. rewrite firstn_app, Nat.sub_diag, firstn_all, firstn_O, app_nil_r. now split.
  - destruct (One _ _ El0) as [-> ->]; [rewrite <- EY, !app_length; lia|]. split; [reflexivity|]. exists StChunkedLength, t, es. split; [exact M|]. split; [right; left; exact (ml_state _ _ _ _ _ _ _ _ _ M)|].
    destruct Gm as (_ & _ & Gc & _). rewrite Ec in *. cbn [good_content] in Gc. destruct Gc as (_ & _ & Ld & _).
    unfold content_text in Ex. cbn [coded_text body_before] in *. change (texts []) with (@nil N) in EY. rewrite <- EY in Ex. rewrite Ep, chunks_text_app, <- !app_assoc in Ex. cbn [app] in Ex. apply app_inv_tail in Ex as <-.
    rewrite <- (chunks_before_last cs la _ Ld), Ep. rewrite <- (Nat.add_0_r (length (chunks_text ds))), chunks_before_app, chunks_before_zero, app_nil_r. now split.
  - destruct (One _ _ El0) as [-> ->]; [rewrite <- EY, !app_length; lia|]. split; [reflexivity|]. exists StChunkedData, t, es. split; [exact M|]. split; [right; right; left; exact (ml_state _ _ _ _ _ _ _ _ _ M)|].
    destruct Gm as (_ & _ & Gc & _). rewrite Ec in *. cbn [good_content] in Gc. destruct Gc as (_ & _ & Ld & _).
    unfold content_text in Ex. cbn [coded_text body_before] in *. change (texts []) with (@nil N) in EY. rewrite <- EY in Ex.
    assert (Exx : x = chunks_text ds ++ size_line ck ++ d1).
    { rewrite Ep, chunks_text_app, chunks_text_cons, <- !app_assoc in Ex. unfold data_text in Ex. rewrite Ed in Ex. destruct (d1 ++ d2) eqn:E2; [apply app_eq_nil in E2 as [_ ->]; congruence|]. rewrite <- E2 in Ex.
      symmetry in Ex. apply (app_inv_tail (d2 ++ [13; 10] ++ chunks_text l ++ block_text trl ++ [13; 10])). rewrite <- !app_assoc in Ex |- *. cbn [app] in *. exact Ex. }
    subst x. rewrite <- (chunks_before_last cs la _ Ld), Ep, (chunk_before ds ck l d1 d2 Ed). now split.
  - destruct (One _ _ El0) as [-> ->]; [rewrite <- EY, !app_length; lia|]. split; [reflexivity|]. exists StChunkedDataEnd, t, es. split; [exact M|]. split; [right; right; right; exact (ml_state _ _ _ _ _ _ _ _ _ M)|].
    destruct Gm as (_ & _ & Gc & _). rewrite Ec in *. cbn [good_content] in Gc. destruct Gc as (_ & _ & Ld & _).
    unfold content_text in Ex. cbn [coded_text body_before] in *. change (texts []) with (@nil N) in EY. rewrite <- EY in Ex.
    assert (Exx : x = chunks_text ds ++ size_line ck ++ ck_data ck).
    { rewrite Ep, chunks_text_app, chunks_text_cons, <- !app_assoc in Ex. unfold data_text in Ex. destruct (ck_data ck) as [|z0 z1] eqn:E2; [congruence|]. rewrite <- E2 in Ex |- *.
      symmetry in Ex. apply (app_inv_tail ([13; 10] ++ chunks_text l ++ block_text trl ++ [13; 10])). rewrite <- !app_assoc in Ex. cbn [app] in *. rewrite Ex, <- !app_assoc. reflexivity. }
    subst x. rewrite <- (chunks_before_last cs la _ Ld), Ep, (chunk_before ds ck l (ck_data ck) []) by now rewrite app_nil_r. now split.
  - exfalso. destruct (One _ _ El0) as [-> ->]; [rewrite <- EY, !app_length; lia|]. rewrite Ec in Ey. change (texts []) with (@nil N) in EY. rewrite app_nil_r in EY. rewrite Ey in EY. apply (f_equal (@length N)) in EY. apply (f_equal (@length N)) in Eq. rewrite El in EY. unfold block_text in *. rewrite map_app, concat_app in EY. rewrite !app_length in *. lia.
  - exfalso. assert (0 < length q)%nat by (destruct q; [congruence|cbn; lia]). destruct l0 as [|z0 [|z1 l]]; cbn [app] in El0; [discriminate|injection El0 as -> -> ->|injection El0 as -> -> ->].
    + apply (f_equal (@length N)) in EY. unfold after_line in EY. rewrite !app_length in EY. cbn [length] in EY. lia.
    + specialize (Tl l). apply (f_equal (@length N)) in EY. rewrite !app_length in EY. lia.
Qed.

(** * The call that the request parser gets when the connection is closed *)
Lemma close_in_body e s t : d_status (s_req s) = SsClosed -> d_status (s_resp s) <> SsDataOther -> in_body s -> d_recv (s_req s) = None -> tx_get (s_ridx s) (s_txs s) = Some t ->
  exists s' t', data_call SReq pd_default e s = (ROk SsData, s') /\ outside s' = outside s /\ s_trace s' = s_trace s /\ (t' = t \/ t' = spent 0 t) /\
    tx_get (s_ridx s) (s_txs s') = Some t' /\ forall j, j <> s_ridx s -> tx_get j (s_txs s') = tx_get j (s_txs s).
Proof.
  intros D1 D2 B D4 G. destruct (call_closed SReq e s D1 D2) as [n ->].
  assert (H : exists x s1 t', pausing x /\ handle_state SReq e (given SReq s) = (RErr x, s1) /\ outside s1 = outside s /\ s_trace s1 = s_trace s /\ s_ridx s1 = s_ridx s /\ d_recv (s_req s1) = None /\ (t' = t \/ t' = spent 0 t) /\
    tx_get (s_ridx s) (s_txs s1) = Some t' /\ forall j, j <> s_ridx s -> tx_get j (s_txs s1) = tx_get j (s_txs s)).
  { assert (Hs : forall st f, d_state (s_req s) = st -> (match st with StIdentity => request_body_identity | StChunkedLength => request_body_chunked_length | StChunkedData => body_chunked_data SReq | StChunkedDataEnd => request_body_chunked_data_end | _ => f end) = f -> In st [StIdentity; StChunkedLength; StChunkedData; StChunkedDataEnd] ->
      handle_state SReq e (given SReq s) = f e (given SReq s)).
    { intros st f Es Ef I. unfold handle_state, by_side, handle_request_state. unfold bind at 1, get_d at 1. change (d_state (s_dir SReq (given SReq s))) with (d_state (s_req s)). rewrite Es. rewrite <- Ef. destruct I as [<-|[<-|[<-|[<-|[]]]]]; reflexivity. }
    destruct B as [(B & k & L) | [B | [B | B]]].
    - exists SData, (given SReq s), t. split; [now left|]. split; [rewrite (Hs _ _ B eq_refl) by (cbn; tauto)|repeat (split; [reflexivity || exact D4|]); split; [now left|split; [exact G|reflexivity]]].
      unfold request_body_identity. unfold bind at 1, get_d at 1. change (d_left (s_dir SReq (given SReq s))) with (d_left (s_req s)). rewrite L. unfold bind at 1, input at 1. change (pd_len (s_input (given SReq s))) with 0. rewrite N.min_0_l. reflexivity.
    - exists SDataBuffer. eexists. exists t. split; [now right|]. split; [rewrite (Hs _ _ B eq_refl) by (cbn; tauto); reflexivity|]. repeat (split; [reflexivity || exact D4|]); split; [now left|split; [exact G|reflexivity]].
    - exists SData, (given SReq s), t. split; [now left|]. split; [rewrite (Hs _ _ B eq_refl) by (cbn; tauto)|repeat (split; [reflexivity || exact D4|]); split; [now left|split; [exact G|reflexivity]]].
      unfold body_chunked_data. unfold bind at 1, input at 1. unfold bind at 1, get_d at 1. change (pd_len (s_input (given SReq s))) with 0. rewrite N.min_0_l. reflexivity.
    - exists SDataBuffer. eexists. exists (spent 0 t). split; [now right|]. split.
      { rewrite (Hs _ _ B eq_refl) by (cbn; tauto). unfold request_body_chunked_data_end. unfold bind at 1. rewrite (need_tx_get SReq e (given SReq s) t) by exact G. unfold bind at 1, input at 1.
        change (take_till_lf (pd_as_slice (s_input (given SReq s)))) with (@PInc bytes). cbv iota. change (pd_len (s_input (given SReq s))) with 0. unfold bind at 1. rewrite (add_mlen_eval 0 e (given SReq s) t) by exact G. reflexivity. }
      repeat (split; [reflexivity || exact D4|]). split; [now right|]. split; [cbn; apply (tx_get_set_eq _ _ _ _ G)|]. intros j Hj. cbn. now apply tx_get_set_other. }
  destruct H as (x & s1 & t' & Hx & H & O & T & I & R & Ht & G1 & Ot). apply (step_err SReq) in H; [|reflexivity]. destruct (after_step_data SReq x e s1 Hx R) as (p & l & H3 & H4 & _).
  rewrite H3 in H. rewrite (loop_last _ _ _ _ _ _ H). cbn [s_idx] in H4. rewrite I in H4. eexists. exists t'. split; [reflexivity|]. split; [exact O|]. split; [exact T|]. split; [exact Ht|]. split.
  - exact (looked_some _ _ _ _ _ _ H4 G1).
  - intros j Hj. cbn. rewrite (looked_other _ _ _ _ _ H4 Hj). now apply Ot.
Qed.

Definition flushed (e : env) (is : list N) (j : N) : bool := c_flush (e_cfg e) && c_auto_destroy (e_cfg e) && existsb (N.eqb j) is.
Lemma close_cut e s t : live_status (d_status (s_req s)) -> rlive (d_status (s_resp s)) -> in_body s -> d_recv (s_req s) = None -> tx_get (s_ridx s) (s_txs s) = Some t ->
  d_state (s_resp s) = StIdle -> d_recv (s_resp s) = None -> tx_get (s_pidx s) (s_txs s) <> None -> NoDup (map fst (s_txs s)) -> is_unfinished t = true ->
  exists s' t' is, run_op OpClose e s = (ROk None, s') /\ events s' = events s ++ map (fun i => mk_ev HTransactionComplete i PlNone) is /\ (t' = t \/ t' = spent 0 t) /\
    (if c_flush (e_cfg e) then NoDup is /\ (forall j, In j is <-> exists t, tx_get j (s_txs s) = Some t /\ is_unfinished t = true) else is = []) /\
    forall j, tx_get j (s_txs s') = if flushed e is j then None else if j =? s_ridx s then Some t' else tx_get j (s_txs s).
Proof.
  intros Lq Lp B D2 G P1 P4 Gp Nd Un.
  destruct (close_in_body e (shut SResp (shut SReq s)) t) as (s1 & t' & H1 & O1 & T1 & Ht & G1 & Ot1); [reflexivity|discriminate|exact B|exact D2|exact G|].
  change (s_ridx (shut SResp (shut SReq s))) with (s_ridx s) in *. change (s_txs (shut SResp (shut SReq s))) with (s_txs s) in *. change (s_trace (shut SResp (shut SReq s))) with (s_trace s) in *.
  unfold outside in O1. injection O1 as E1 E2 E3.
  destruct (close_resp e s1) as (s2 & H2 & T2 & L2); [rewrite E2; reflexivity|rewrite E2; exact P1|rewrite E2; exact P4|]. rewrite E1 in L2.
  assert (Gp1 : tx_get (s_pidx s) (s_txs s1) <> None) by (destruct (N.eq_dec (s_pidx s) (s_ridx s)) as [E | E]; [rewrite E, G1; discriminate|rewrite Ot1 by exact E; exact Gp]).
  assert (Es2 : s_txs s2 = s_txs s1) by (destruct L2 as [L2 | (L2 & _)]; [exact L2|]; change (s_pidx (shut SResp (shut SReq s))) with (s_pidx s) in L2; congruence). clear L2.
  assert (C : closing e s = (ROk SsData, s2)).
  { unfold closing. unfold bind at 1. rewrite close_status_eval by exact (live_fine _ Lq). unfold bind at 1. rewrite close_status_eval by exact (rlive_fine _ Lp). unfold bind. rewrite H1. exact H2. }
  assert (Gj : forall j, tx_get j (s_txs s2) = if j =? s_ridx s then Some t' else tx_get j (s_txs s)).
  { intro j. rewrite Es2. destruct (N.eqb_spec j (s_ridx s)) as [-> | Nj]; [exact G1|now apply Ot1]. }
  assert (Un' : is_unfinished t' = true) by (destruct Ht as [-> | ->]; exact Un).
  assert (Ev : events s2 = events s) by (unfold events; now rewrite T2, T1).
  destruct (c_flush (e_cfg e)) eqn:Fl.
  - assert (K : NoDup (map fst (s_txs s2))).
    { pose proof (keys_run [OpClose] (with_flush false e) s Nd) as K1. cbn [run_ops] in K1. unfold bind at 1 in K1. rewrite close_split, closing_same, C in K1. exact K1. }
    set (is := map fst (filter (fun it => is_started (snd it) && negb (is_complete (snd it))) (s_txs s2))).
    assert (I : forall j, In j is <-> exists t, tx_get j (s_txs s) = Some t /\ is_unfinished t = true).
    { intro j. unfold is. rewrite (filter_keys is_unfinished) by exact K. rewrite Gj. destruct (N.eqb_spec j (s_ridx s)) as [-> | Nj]; [|reflexivity]. split; intros _; eauto. }
    destruct (flush_each e is s2) as (new & X & E & Gn & X1 & X2); [now apply filter_keys_nodup|exact K| |].
    { intros j Hj. apply (filter_keys is_unfinished) in Hj as (t0 & -> & _); [discriminate|exact K]. }
    exists (set_s_txs X (set_s_trace (rev new ++ s_trace s2) s2)), t', is. split; [|split; [|split; [exact Ht|split; [split; [now apply filter_keys_nodup|exact I]|]]]].
    + rewrite close_split, C. rewrite Fl. cbn [when]. change (flush_incomplete_transactions e s2) with (for_each (flush_one e) is e s2). rewrite E. reflexivity.
    + rewrite <- Ev. unfold events. cbn [s_trace set_s_txs set_s_trace]. rewrite map_app, rev_app_distr, map_rev, rev_involutive, Gn. reflexivity.
    + intro j. cbn [s_txs set_s_txs]. unfold flushed. rewrite Fl. cbn [andb]. destruct (c_auto_destroy (e_cfg e)); [rewrite X2 by reflexivity; cbn [andb]; now rewrite Gj|rewrite X1 by reflexivity; apply Gj].
  - exists s2, t', []. split; [rewrite close_split, C, Fl; reflexivity|]. split; [cbn [map]; now rewrite app_nil_r|]. split; [exact Ht|]. split; [reflexivity|]. intro j. unfold flushed. rewrite Fl. apply Gj.
Qed.

(** * The requests *)
Lemma cut_done {cfg} q i t es : good_cut q -> ready (cu_message q) (rq_lines (m_req (cu_message q))) (blen (cu_data q)) (blen (cu_seen q)) t -> body_events cfg i (cu_message q) (cu_data q) es ->
  cut_asked q t /\ cut_asked q (spent 0 t) /\ cut_events cfg i q es /\ is_unfinished t = true.
Proof.
  intros (_ & Gm & _ & (z & _ & Ez) & _) Rd (he & bs & (hs & H1 & ->) & H2 & H3 & ->).
  assert (Ls : blen (cu_seen q) + 0 < 2 ^ 64). { destruct Gm as (_ & Lc & _). rewrite Ez in Lc. unfold blen in *. rewrite app_length in Lc. lia. }
  assert (A : forall t, ready (cu_message q) (rq_lines (m_req (cu_message q))) (blen (cu_data q)) (blen (cu_seen q)) t -> cut_asked q t).
  { clear. intros t [R1 R2 R3 R4 [R5 _] Rh R6 R7 R8 R9 R10 R11 R12 R13 R14 R15]. constructor; try assumption. eexists. split; [exact R13|apply located_parse]. }
  split; [now apply A|]. split; [apply A; rewrite <- (N.add_0_r (blen (cu_seen q))); now apply ready_spent|]. split.
  - exists (sent_params cfg (rq_target (m_req (cu_message q)))), hs, bs. split; [apply sent_reported|]. split; [exact H1|]. split; [exact H2|]. split; [exact H3|].
    unfold line_events, ev_header, ev_start. rewrite <- !app_assoc. reflexivity.
  - apply unfinished_b. split; left; apply Rd.
Qed.
Lemma cut_runs e n tr T z s q : yes e -> level n tr T z s -> all_over n T -> good_cut q ->
  Forall (fun m => blen (request_text (m_req m)) <= c_field_limit (e_cfg e) /\ blen (block_text (trailer_of (m_content m))) + 2 <= c_field_limit (e_cfg e)) (cu_whole q ++ [cu_message q]) ->
  n + N.of_nat (length (cu_whole q) + 1) < 2 ^ 64 -> N.of_nat z + N.of_nat (length (cu_whole q) + 1) <= c_max_tx (e_cfg e) ->
  exists s' s'' t es1 es2 is, run_ops (reqs (cu_up q)) e s = (ROk (more (reqs (cu_up q))), s') /\ run_op OpClose e s' = (ROk None, s'') /\
    s_trace s' = tr_of (es1 ++ es2) tr /\ stream_events (e_cfg e) n (cu_whole q) es1 /\ cut_events (e_cfg e) (n + N.of_nat (length (cu_whole q))) q es2 /\
    events s'' = events s' ++ map (fun i => mk_ev HTransactionComplete i PlNone) is /\
    (if c_flush (e_cfg e) then NoDup is /\ (forall j, In j is <-> n <= j <= n + N.of_nat (length (cu_whole q))) else is = []) /\
    cut_asked q t /\
    (forall j, j < n -> tx_get j (s_txs s'') = T j) /\
    (if c_flush (e_cfg e) && c_auto_destroy (e_cfg e) then forall j, n <= j <= n + N.of_nat (length (cu_whole q)) -> tx_get j (s_txs s'') = None
     else tx_get (n + N.of_nat (length (cu_whole q))) (s_txs s'') = Some t /\
       forall k m, nth_error (cu_whole q) k = Some m -> exists t, tx_get (n + N.of_nat k) (s_txs s'') = Some t /\ holds m t).
Proof.
  intros Y [Lq (P1 & P2 & P3 & P4 & P5 & P6) Lf Lk] Al Gq Lim Ix Sz. assert (Gq' := Gq). destruct Gq' as (Gs & Gm & Ec & (lost & Nl & El) & Eu & Nu & Cl). set (m := cu_message q) in *. set (ms := cu_whole q) in *. set (C := mk_ctx T (n, s_resp s, false) z) in *.
  assert (R1 : room e n C (ms ++ [m])).
  { constructor; unfold C; cbn [cx_rest cx_size cx_table fst snd]; rewrite ?app_length; cbn [length]; try assumption; try lia; [apply Forall_app; split; [exact Gs|now constructor]|]. intro Z. rewrite Z in P3. destruct P3; discriminate. }
  pose proof (@pa_idle (e_cfg e) n C tr (ms ++ [m]) s Lq) as P.
  replace (texts (ms ++ [m])) with (concat (cu_up q) ++ cu_rest q) in P by (rewrite Eu; unfold texts; rewrite map_app, concat_app; cbn [map concat]; rewrite app_nil_r; change (message_text m) with (request_text (m_req m) ++ content_text (m_content m)); rewrite Ec, <- !app_assoc; reflexivity).
  destruct (stream_calls e (cu_up q) Y n C tr (ms ++ [m]) (cu_rest q) s R1 Nu) as (s1 & done & ms' & i1 & C1 & tr1 & H1 & E1 & T1 & Q1); [|exact P|].
  { intros a b Eab _ before x after y Em. exact (Cl a b before x after y Eab Em). }
  assert (Nr : cu_rest q <> []). { intro Z. rewrite Z, app_nil_r in Ec. unfold content_text in Ec. rewrite El, <- app_assoc in Ec. apply (f_equal (@length N)) in Ec. rewrite !app_length in Ec. destruct lost; [congruence|cbn in Ec; lia]. }
  assert (Ms : exists l, ms' = l ++ [m]).
  { destruct ms' as [|x l] using rev_ind; [|rewrite app_assoc in E1; apply app_inj_tail in E1 as [_ ->]; eauto]. exfalso. remember (@nil message) as ms0 eqn:Em0 in Q1. destruct Q1; try discriminate Em0. subst ms0. apply Nr. reflexivity. }
  destruct (paused_cut _ _ _ _ _ (cu_seen q) (cu_rest q) lost _ Q1 Ms Gm Ec Nl El) as (-> & x & t & es & M & B & Rd & Be). apply app_inj_tail in E1 as [<- _].
  destruct (told_facts _ _ _ _ _ _ _ T1) as (Ei & (es1 & Et & Se) & Tx & Ti). destruct (told_more _ _ _ _ _ _ _ T1) as (Tm & Tr & _). subst i1. rewrite Et in M. set (i := n + N.of_nat (length ms)) in *.
  destruct (cut_done q i t es Gq Rd Be) as (A1 & A2 & Ce & Un).
  assert (Out := ml_outside _ _ _ _ _ _ _ _ _ M). rewrite Tr in Out. unfold C in Out. cbn [cx_rest] in Out. unfold outside in Out. injection Out as O1 O2 O3.
  assert (K1 : NoDup (map fst (s_txs s1))). { pose proof (keys_run (map (fun c => OpReq (pd_slice c)) (cu_up q)) e s Lk) as K1. rewrite H1 in K1. exact K1. }
  assert (Gt : forall j, j <> i -> tx_get j (s_txs s1) = cx_table C1 j) by exact (ml_others _ _ _ _ _ _ _ _ _ M).
  pose proof (ml_idx _ _ _ _ _ _ _ _ _ M) as Ir. pose proof (ml_tx _ _ _ _ _ _ _ _ _ M) as Gi.
  assert (Gk : forall k m, nth_error ms k = Some m -> exists t, tx_get (n + N.of_nat k) (s_txs s1) = Some t /\ holds m t).
  { intros k m0 Hk. assert (k < length ms)%nat by (apply nth_error_Some; congruence). rewrite Gt by (unfold i; lia). now apply Tx. }
  assert (Uf : forall j, (exists t, tx_get j (s_txs s1) = Some t /\ is_unfinished t = true) <-> n <= j <= i).
  { intro j. destruct (N.lt_trichotomy j i) as [L | [-> | L]].
    - destruct (N.lt_ge_cases j n) as [L' | L'].
      + split; [|lia]. intros (t0 & G0 & U0). rewrite Gt, Ti in G0 by lia. cbn [C cx_table] in G0. unfold is_unfinished in U0. rewrite (Al j t0 L' G0), Bool.andb_false_r in U0. discriminate.
      + split; [lia|]. intros _. destruct (nth_error ms (N.to_nat (j - n))) as [m0|] eqn:Ek; [|apply nth_error_None in Ek; unfold i in L; lia]. destruct (Gk _ _ Ek) as (t0 & G0 & [A0 B0]). replace (n + N.of_nat (N.to_nat (j - n))) with j in G0 by lia.
        exists t0. split; [exact G0|]. apply unfinished_b. split; [left; rewrite (ho_progress _ _ A0); discriminate|right]. unfold reply_part in B0. injection B0 as B0 _. rewrite B0. discriminate.
    - split; [lia|]. intros _. eauto.
    - split; [|lia]. intros (t0 & G0 & _). rewrite Gt, Tm in G0 by lia. cbn [C cx_table] in G0. rewrite Lf in G0 by (unfold i in L; lia). discriminate. }
  destruct (close_cut e s1 t) as (s2 & t' & is & Hc & Ev & Ht & Fi & Gj); [exact (ml_live _ _ _ _ _ _ _ _ _ M)|rewrite O2; exact P3|exact B|exact (ml_recv _ _ _ _ _ _ _ _ _ M)|rewrite Ir; exact Gi|rewrite O2; exact P1|rewrite O2; exact P4| |exact K1|exact Un|].
  { rewrite O1. destruct (proj2 (Uf n)) as (t0 & -> & _); [unfold i; lia|discriminate]. }
  rewrite Ir in Gj. exists s1, s2, t', es1, es, is. split; [unfold more, reqs; rewrite map_map; exact H1|]. split; [exact Hc|]. split; [rewrite tr_of_app; exact (ml_trace _ _ _ _ _ _ _ _ _ M)|]. split; [exact Se|]. split; [exact Ce|]. split; [exact Ev|].
  split; [destruct (c_flush (e_cfg e)); [|exact Fi]; destruct Fi as [F1 F2]; split; [exact F1|]; intro j; rewrite F2; apply Uf|]. split; [destruct Ht as [-> | ->]; assumption|].
  assert (Fj : forall j, flushed e is j = true <-> c_flush (e_cfg e) = true /\ c_auto_destroy (e_cfg e) = true /\ n <= j <= i).
  { intro j. unfold flushed. rewrite !Bool.andb_true_iff, existsb_exists. destruct (c_flush (e_cfg e)); [|intuition discriminate]. destruct Fi as [_ F2]. split.
    - intros [[_ A] (j' & I & ->%N.eqb_eq)]. split; [reflexivity|]. split; [exact A|]. now apply Uf, F2.
    - intros (_ & A & L). split; [now split|]. exists j. split; [now apply F2, Uf|apply N.eqb_refl]. }
  split.
  - intros j Hj. rewrite Gj. destruct (flushed e is j) eqn:F; [apply Fj in F; lia|]. destruct (N.eqb_spec j i) as [-> | Nj]; [unfold i in Hj; lia|]. rewrite Gt, Ti by assumption. reflexivity.
  - destruct (c_flush (e_cfg e) && c_auto_destroy (e_cfg e)) eqn:Fa.
    + apply Bool.andb_true_iff in Fa as [F1 F2]. intros j Hj. rewrite Gj. now replace (flushed e is j) with true by (symmetry; apply Fj; auto).
    + assert (Ff : forall j, flushed e is j = false) by (intro j; unfold flushed; now rewrite Fa). split; [rewrite Gj, Ff, N.eqb_refl; reflexivity|].
      intros k m0 Hk. assert (k < length ms)%nat by (apply nth_error_Some; congruence). rewrite Gj, Ff. destruct (N.eqb_spec (n + N.of_nat k) i) as [E | _]; [unfold i in E; lia|]. now apply Gk.
Qed.

(** * Histories *)
Definition cut_run (e : env) (before : list round) (q : cut_request) : Prop :=
  exists s t es1 es2 es3 is, history e (conversation before ++ reqs (cu_up q) ++ [OpClose]) = (ROk (all_calls before ++ more (reqs (cu_up q)) ++ [None]), s) /\
    events s = es1 ++ es2 ++ es3 ++ map (fun i => mk_ev HTransactionComplete i PlNone) is /\
    conversation_events (e_cfg e) 0 before es1 /\ stream_events (e_cfg e) (N.of_nat (length (exchanges before))) (cu_whole q) es2 /\
    cut_events (e_cfg e) (N.of_nat (length (exchanges before)) + N.of_nat (length (cu_whole q))) q es3 /\
    (if c_flush (e_cfg e) then NoDup is /\ (forall j, In j is <-> N.of_nat (length (exchanges before)) <= j <= N.of_nat (length (exchanges before)) + N.of_nat (length (cu_whole q))) else is = []) /\
    done_with e s 0 before /\ cut_asked q t /\
    (if c_flush (e_cfg e) && c_auto_destroy (e_cfg e)
     then forall j, N.of_nat (length (exchanges before)) <= j <= N.of_nat (length (exchanges before)) + N.of_nat (length (cu_whole q)) -> tx_get j (s_txs s) = None
     else tx_get (N.of_nat (length (exchanges before)) + N.of_nat (length (cu_whole q))) (s_txs s) = Some t /\
       forall k m, nth_error (cu_whole q) k = Some m -> exists t, tx_get (N.of_nat (length (exchanges before)) + N.of_nat k) (s_txs s) = Some t /\ holds m t).
Lemma cut_parsed_yes e before q : yes e -> Forall good_round before -> good_cut q -> cut_fits e before q -> cut_run e before q.
Proof.
  intros Y G Gq ((F1 & F2 & F3) & B1 & B2 & B3). destruct (open_level e) as (s0 & H0 & L0).
  destruct (talk_runs_size e before Y 0 [] _ 0%nat s0 L0 G F1 F2 F3) as (s1 & T1 & z & es1 & H1 & Ce & L & _ & X & Z). rewrite N.add_0_l in L.
  assert (X' : forall k x, nth_error (exchanges before) k = Some x -> over (c_auto_destroy (e_cfg e)) T1 (N.of_nat k) x) by (intros k x Hk; specialize (X k x Hk); now rewrite N.add_0_l in X).
  destruct (cut_runs e _ _ _ _ _ q Y L (over_complete _ _ _ X') Gq B1 B2) as (s2 & s3 & t & es2 & es3 & is & H2 & H3 & Tr & Se & Cu & Ev & Fi & La & Ot & Gt); [rewrite Z; destruct (c_auto_destroy _); lia|].
  set (n := N.of_nat (length (exchanges before))) in *.
  exists s3, t, es1, es2, es3, is. split; [|split; [|split; [exact Ce|split; [exact Se|split; [exact Cu|split; [exact Fi|split; [|split; [exact La|exact Gt]]]]]]]].
  - assert (Hc : run_ops [OpClose] e s2 = (ROk [None], s3)) by (cbn [run_ops]; unfold bind; rewrite H3; reflexivity).
    unfold history, conversation, all_calls. cbn [run_ops app map]. unfold bind at 1. rewrite H0. unfold bind at 1. erewrite run_ops_app; [|exact H1|eapply run_ops_app; [exact H2|exact Hc]]. reflexivity.
  - rewrite Ev. rewrite (events_tr_of (es1 ++ es2 ++ es3) s2) by (rewrite Tr, <- tr_of_app; reflexivity). now rewrite <- !app_assoc.
  - intros k m r Hk. assert (k < length (exchanges before))%nat by (apply nth_error_Some; congruence). rewrite N.add_0_l, Ot by (unfold n; lia). specialize (X k (m, r) Hk). rewrite N.add_0_l in X. exact X.
Qed.
Lemma cut_parsed e before q : accepting e -> Forall good_round before -> good_cut q -> cut_fits e before q -> cut_run e before q.
Proof.
  intros A G Gq F. destruct (cut_parsed_yes (mute e) before q (yes_mute e) G Gq F) as (s & t & es1 & es2 & es3 & is & H & Ee & Ce & Se & Cu & Fi & D & La & Gt).
  match type of H with history _ ?l = _ => destruct (history_mute e l A) as [H1 H2] end. rewrite H in H1, H2. cbn [fst snd] in H1, H2. apply similar_txs in H2 as [H2 H3].
  match type of H with history _ ?l = _ => exists (snd (history e l)) end. exists t, es1, es2, es3, is. split; [rewrite <- H1; apply surjective_pairing|]. rewrite H3. split; [exact Ee|]. split; [now apply conversation_events_mute|]. split; [now apply stream_events_mute|]. split; [exact Cu|].
  split; [exact Fi|]. split; [eapply done_mute; [exact H2|exact D]|]. split; [exact La|]. rewrite H2. exact Gt.
Qed.
