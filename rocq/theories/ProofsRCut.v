(** Responses that the end of the connection cuts off in their chunks. *)
From Verif Require Import ProofsUrl ProofsUri.
From Verif Require Import Base Spec SpecTx SpecConn SpecMsg SpecTwo SpecResp SpecConnect SpecRCut ModelUtil ModelBstr ModelParsers ModelUrl ModelUri ModelHeaders ModelState ModelTx ModelConn ModelHook
  ProofsBase ProofsBstr ProofsParsers ProofsHeaders ProofsTx ProofsConn ProofsCore ProofsLoop ProofsHist ProofsQuiet ProofsEval ProofsBody ProofsHead ProofsFrame ProofsStream ProofsChunk ProofsTwoRuns ProofsMsg ProofsRStream ProofsRHead ProofsRBody ProofsRMsg ProofsTalk ProofsConnect4 ProofsClose ProofsCut.

(** * Where the response parser waits *)
Definition in_chunks (s : st) : Prop := d_state (s_resp s) = StChunkedLength \/ d_state (s_resp s) = StChunkedData \/ d_state (s_resp s) = StChunkedDataEnd.
Lemma rchunk_before ds ck l x : ck_data ck <> [] -> (exists y, x ++ y = [13; 10] /\ y <> []) ->
  chunks_before (ds ++ ck :: l) (length (chunks_text ds ++ size_line ck ++ ck_data ck ++ x)) = datas ds ++ ck_data ck.
Proof.
  intros Nd (y & Ex & Ny). assert (Lx : (length x <= 2)%nat) by (apply (f_equal (@length N)) in Ex; rewrite app_length in Ex; cbn [length] in Ex; lia).
  rewrite app_length, chunks_before_app. f_equal. cbn [chunks_before]. rewrite firstn_all2 by (rewrite !app_length; lia).
  match goal with |- context [chunks_before l ?n] => replace n with 0%nat end; [rewrite chunks_before_zero; apply app_nil_r|].
  unfold chunk_text, data_text. destruct (ck_data ck) eqn:E2; [congruence|]. rewrite !app_length. cbn [length]. lia.
Qed.
Lemma rpaused_cut i C tr xs m r x y z s : rpaused i C tr xs y s -> (exists l, xs = l ++ [(m, r)]) -> good_response m r -> (exists cs la trl, rp_content r = Chunked cs la trl) ->
  content_text (rp_content r) = x ++ y -> z <> [] -> coded_text (rp_content r) = x ++ z ->
  xs = [(m, r)] /\ exists st t es, rmile st None [] None i t (tr_of es tr) C s /\ in_chunks s /\ rready m r (rp_lines r) (blen (body_before (rp_content r) (length x))) (blen x) t /\
    rbody_events i r (body_before (rp_content r) (length x)) es.
Proof.
  intros P (l0 & El0) Gm (cs0 & la0 & trl0 & Ec0) Ex Nz Ez. assert (Ey : y = z ++ match rp_content r with Plain _ => [] | Chunked _ _ tr => block_text tr ++ [13; 10] end).
  { unfold content_text in Ex. rewrite Ez, <- app_assoc in Ex. symmetry. now apply app_inv_head in Ex. }
  assert (Lz : (0 < length z)%nat) by (destruct z; [congruence|cbn; lia]).
  assert (Ly : (length y <= length (content_text (rp_content r)))%nat) by (rewrite Ex, app_length; lia).
  assert (Tl : forall l', (length y < length (xtexts (l' ++ [(m, r)])))%nat).
  { intro l'. unfold xtexts, rtexts. rewrite !map_app, concat_app. cbn [map concat snd]. rewrite app_nil_r, response_text_line. unfold rafter_line. rewrite !app_length. cbn [length]. lia. }
  assert (One : forall x0 xs0, x0 :: xs0 = l0 ++ [(m, r)] -> (length (xtexts xs0) <= length y)%nat -> x0 = (m, r) /\ xs0 = []).
  { intros m0 ms0 E L. destruct l0 as [|z0 l]; cbn [app] in E; injection E as -> ->; [now split|]. specialize (Tl l). lia. }
  remember y as Y0 eqn:EY in P.
  destruct P as [xs s Q|m0 r0 xs p l t s El Ct M|m0 r0 xs ls1 ls2 p q t hs s El Eq Nq Hp Eh Rd Tp M|m0 r0 xs b1 b2 t es s Ec Nb Rd Be M L|m0 r0 xs cs la trl ds l t es s Ec Ep Nl Rd Be M|m0 r0 xs cs la trl ds ck l d1 d2 t es s Ec Ep Ed Nd Rd Be M L|m0 r0 xs cs la trl ds ck l x0 y0 t es s Ec Ep Nd Ex0 Ny Rd Be M|m0 r0 xs cs la trl ls1 ls2 p q t es hs s Ec El Eq Nq Hp Eh Rd Tp Be M|m0 r0 m' r' xs p l t es s El Np Rd Es M].
  - exfalso. specialize (Tl l0). rewrite <- El0, EY in Tl. lia.
  - exfalso. destruct (One _ _ El0) as [[= -> ->] ->]; [rewrite <- EY, !app_length; lia|]. apply (f_equal (@length N)) in EY. unfold rafter_line in EY. rewrite !app_length in EY. cbn [length] in EY. lia.
  - exfalso. assert (0 < length q)%nat by (destruct q; [congruence|cbn; lia]). destruct (One _ _ El0) as [[= -> ->] ->]; [rewrite <- EY, !app_length; lia|]. apply (f_equal (@length N)) in EY. rewrite !app_length in EY. lia.
  - exfalso. destruct (One _ _ El0) as [[= -> ->] ->]; [rewrite <- EY, !app_length; lia|]. congruence.
  - destruct (One _ _ El0) as [[= -> ->] ->]; [rewrite <- EY, !app_length; lia|]. split; [reflexivity|]. exists StChunkedLength, t, es. split; [exact M|]. split; [left; exact (rm_state _ _ _ _ _ _ _ _ _ M)|].
    destruct Gm as (_ & _ & _ & _ & _ & _ & _ & _ & Gc & _). rewrite Ec in *. cbn [good_content] in Gc. destruct Gc as (_ & _ & Ld & _).
    unfold content_text in Ex. cbn [coded_text body_before] in *. change (xtexts []) with (@nil N) in EY. rewrite <- EY in Ex. rewrite Ep, chunks_text_app, <- !app_assoc in Ex. cbn [app] in Ex. apply app_inv_tail in Ex as <-.
    rewrite <- (chunks_before_last cs la _ Ld), Ep. rewrite <- (Nat.add_0_r (length (chunks_text ds))), chunks_before_app, chunks_before_zero, app_nil_r. now split.
  - destruct (One _ _ El0) as [[= -> ->] ->]; [rewrite <- EY, !app_length; lia|]. split; [reflexivity|]. exists StChunkedData, t, es. split; [exact M|]. split; [right; left; exact (rm_state _ _ _ _ _ _ _ _ _ M)|].
    destruct Gm as (_ & _ & _ & _ & _ & _ & _ & _ & Gc & _). rewrite Ec in *. cbn [good_content] in Gc. destruct Gc as (_ & _ & Ld & _).
    unfold content_text in Ex. cbn [coded_text body_before] in *. change (xtexts []) with (@nil N) in EY. rewrite <- EY in Ex.
    assert (Exx : x = chunks_text ds ++ size_line ck ++ d1).
    { rewrite Ep, chunks_text_app, chunks_text_cons, <- !app_assoc in Ex. unfold data_text in Ex. rewrite Ed in Ex. destruct (d1 ++ d2) eqn:E2; [apply app_eq_nil in E2 as [_ ->]; congruence|]. rewrite <- E2 in Ex.
      symmetry in Ex. apply (app_inv_tail (d2 ++ [13; 10] ++ chunks_text l ++ block_text trl ++ [13; 10])). rewrite <- !app_assoc in Ex |- *. cbn [app] in *. exact Ex. }
    subst x. rewrite <- (chunks_before_last cs la _ Ld), Ep, (chunk_before ds ck l d1 d2 Ed). now split.
  - destruct (One _ _ El0) as [[= -> ->] ->]; [rewrite <- EY, !app_length; lia|]. split; [reflexivity|]. exists StChunkedDataEnd, t, es. split; [exact M|]. split; [right; right; exact (rm_state _ _ _ _ _ _ _ _ _ M)|].
    destruct Gm as (_ & _ & _ & _ & _ & _ & _ & _ & Gc & _). rewrite Ec in *. cbn [good_content] in Gc. destruct Gc as (_ & _ & Ld & _).
    unfold content_text in Ex. cbn [coded_text body_before] in *. change (xtexts []) with (@nil N) in EY. rewrite <- EY in Ex.
    assert (Exx : x = chunks_text ds ++ size_line ck ++ ck_data ck ++ x0).
    { rewrite Ep, chunks_text_app, chunks_text_cons, <- !app_assoc in Ex. unfold data_text in Ex. destruct (ck_data ck) as [|z0 z1] eqn:E2; [congruence|]. rewrite <- E2 in Ex. rewrite <- E2.
      symmetry in Ex. apply (app_inv_tail (y0 ++ chunks_text l ++ block_text trl ++ [13; 10])). rewrite <- !app_assoc in Ex. cbn [app] in *. rewrite Ex, <- !app_assoc. cbn [app]. rewrite (app_assoc x0 y0), Ex0. reflexivity. }
    subst x. rewrite <- (chunks_before_last cs la _ Ld), Ep, (rchunk_before ds ck l x0 Nd) by eauto. now split.
  - exfalso. destruct (One _ _ El0) as [[= -> ->] ->]; [rewrite <- EY, !app_length; lia|]. rewrite Ec in Ey. change (xtexts []) with (@nil N) in EY. rewrite app_nil_r in EY. rewrite Ey in EY. apply (f_equal (@length N)) in EY. apply (f_equal (@length N)) in Eq. rewrite El in EY. unfold block_text in *. rewrite map_app, concat_app in EY. rewrite !app_length in *. lia.
  - exfalso. destruct l0 as [|z0 [|z1 l1]]; cbn [app] in El0; [discriminate|injection El0 as _ -> -> ->|injection El0 as _ _ ->].
    + apply (f_equal (@length N)) in EY. unfold rafter_line in EY. rewrite !app_length in EY. cbn [length] in EY. lia.
    + specialize (Tl l1). apply (f_equal (@length N)) in EY. rewrite !app_length in EY. lia.
Qed.

(** * The call that the response parser gets when the connection is closed *)
Lemma close_in_chunks e s t : d_status (s_resp s) = SsClosed -> in_chunks s -> d_recv (s_resp s) = None -> tx_get (s_pidx s) (s_txs s) = Some t ->
  exists s' t', data_call SResp pd_default e s = (ROk SsData, s') /\ s_trace s' = s_trace s /\ (t' = t \/ t' = rspent 0 t) /\
    tx_get (s_pidx s) (s_txs s') = Some t' /\ forall j, j <> s_pidx s -> tx_get j (s_txs s') = tx_get j (s_txs s).
Proof.
  intros D1 B D4 G. destruct (call_closed SResp e s D1 ltac:(rewrite D1; discriminate)) as [n ->].
  assert (H : exists x s1 t', pausing x /\ handle_state SResp e (given SResp s) = (RErr x, s1) /\ s_trace s1 = s_trace s /\ s_pidx s1 = s_pidx s /\ d_recv (s_resp s1) = None /\ (t' = t \/ t' = rspent 0 t) /\
    tx_get (s_pidx s) (s_txs s1) = Some t' /\ forall j, j <> s_pidx s -> tx_get j (s_txs s1) = tx_get j (s_txs s)).
  { assert (Hs : forall st f, d_state (s_resp s) = st -> (match st with StChunkedLength => response_body_chunked_length | StChunkedData => body_chunked_data SResp | StChunkedDataEnd => response_body_chunked_data_end | _ => f end) = f -> In st [StChunkedLength; StChunkedData; StChunkedDataEnd] ->
      handle_state SResp e (given SResp s) = f e (given SResp s)).
    { intros st f Es Ef I. unfold handle_state, by_side, handle_response_state. unfold bind at 1, get_d at 1. change (d_state (s_dir SResp (given SResp s))) with (d_state (s_resp s)). rewrite Es. rewrite <- Ef. destruct I as [<-|[<-|[<-|[]]]]; reflexivity. }
    destruct B as [B | [B | B]].
    - exists SDataBuffer. eexists. exists t. split; [now right|]. split.
      { rewrite (Hs _ _ B eq_refl) by (cbn; tauto). unfold response_body_chunked_length. unfold bind at 1. change (slice e (given SResp s)) with (ROk (@nil N), given SResp s). cbv iota beta. cbn [length response_chunked_length_loop]. unfold bind at 1. rewrite (need_tx_get SResp e (given SResp s) t) by exact G. reflexivity. }
      repeat (split; [reflexivity || exact D4|]); split; [now left|split; [exact G|reflexivity]].
    - exists SData, (given SResp s), t. split; [now left|]. split; [rewrite (Hs _ _ B eq_refl) by (cbn; tauto)|repeat (split; [reflexivity || exact D4|]); split; [now left|split; [exact G|reflexivity]]].
      unfold body_chunked_data. unfold bind at 1, input at 1. unfold bind at 1, get_d at 1. change (pd_len (s_input (given SResp s))) with 0. rewrite N.min_0_l. reflexivity.
    - exists SDataBuffer. eexists. exists (rspent 0 t). split; [now right|]. split.
      { rewrite (Hs _ _ B eq_refl) by (cbn; tauto). unfold response_body_chunked_data_end. unfold bind at 1. rewrite (need_tx_get SResp e (given SResp s) t) by exact G. unfold bind at 1, input at 1.
        change (take_till_lf (pd_as_slice (s_input (given SResp s)))) with (@PInc bytes). cbv iota. change (pd_len (s_input (given SResp s))) with 0. unfold bind at 1. rewrite (radd_mlen_eval 0 e (given SResp s) t) by exact G. reflexivity. }
      repeat (split; [reflexivity || exact D4|]). split; [now right|]. split; [cbn; apply (tx_get_set_eq _ _ _ _ G)|]. intros j Hj. cbn. now apply tx_get_set_other. }
  destruct H as (x & s1 & t' & Hx & H & T & I & R & Ht & G1 & Ot). apply (step_err SResp) in H; [|reflexivity]. destruct (after_step_data SResp x e s1 Hx R) as (p & l & H3 & H4 & _).
  rewrite H3 in H. rewrite (loop_last _ _ _ _ _ _ H). cbn [s_idx] in H4. rewrite I in H4. eexists. exists t'. split; [reflexivity|]. split; [exact T|]. split; [exact Ht|]. split.
  - exact (looked_some _ _ _ _ _ _ H4 G1).
  - intros j Hj. cbn. rewrite (looked_other _ _ _ _ _ H4 Hj). now apply Ot.
Qed.
(** After the two calls that say that the connection is closed the unfinished transactions are flushed, if that is configured. *)
Lemma close_flush e s x s2 : closing e s = (ROk x, s2) -> NoDup (map fst (s_txs s)) ->
  exists s' is, run_op OpClose e s = (ROk None, s') /\ events s' = events s2 ++ map (fun i => mk_ev HTransactionComplete i PlNone) is /\
    (if c_flush (e_cfg e) then NoDup is /\ (forall j, In j is <-> exists t, tx_get j (s_txs s2) = Some t /\ is_unfinished t = true) else is = []) /\
    forall j, tx_get j (s_txs s') = if flushed e is j then None else tx_get j (s_txs s2).
Proof.
  intros C Nd. destruct (c_flush (e_cfg e)) eqn:Fl.
  - assert (K : NoDup (map fst (s_txs s2))).
    { pose proof (keys_run [OpClose] (with_flush false e) s Nd) as K1. cbn [run_ops] in K1. unfold bind at 1 in K1. rewrite close_split, closing_same, C in K1. exact K1. }
    set (is := map fst (filter (fun it => is_started (snd it) && negb (is_complete (snd it))) (s_txs s2))).
    destruct (flush_each e is s2) as (new & X & E & Gn & X1 & X2); [now apply filter_keys_nodup|exact K| |].
    { intros j Hj. apply (filter_keys is_unfinished) in Hj as (t0 & -> & _); [discriminate|exact K]. }
    exists (set_s_txs X (set_s_trace (rev new ++ s_trace s2) s2)), is. split; [|split; [|split; [split; [now apply filter_keys_nodup|]|]]].
    + rewrite close_split, C. rewrite Fl. cbn [when]. change (flush_incomplete_transactions e s2) with (for_each (flush_one e) is e s2). rewrite E. reflexivity.
    + unfold events. cbn [s_trace set_s_txs set_s_trace]. rewrite map_app, rev_app_distr, map_rev, rev_involutive, Gn. reflexivity.
    + intro j. unfold is. apply (filter_keys is_unfinished). exact K.
    + intro j. cbn [s_txs set_s_txs]. unfold flushed. rewrite Fl. cbn [andb]. destruct (c_auto_destroy (e_cfg e)); [rewrite X2 by reflexivity; reflexivity|rewrite X1 by reflexivity; reflexivity].
  - exists s2, []. split; [rewrite close_split, C, Fl; reflexivity|]. split; [cbn [map]; now rewrite app_nil_r|]. split; [reflexivity|]. intro j. unfold flushed. now rewrite Fl.
Qed.
Lemma only_one (is : list N) i : NoDup is -> (forall j, In j is <-> j = i) -> is = [i].
Proof.
  intros Nd H. destruct is as [|a [|b is]].
  - destruct (proj2 (H i) eq_refl).
  - f_equal. apply H. now left.
  - exfalso. assert (a = i) by (apply H; now left). assert (b = i) by (apply H; right; now left). subst. apply NoDup_cons_iff in Nd as [Nd _]. apply Nd. now left.
Qed.

(** * The responses *)
Lemma cut_reply_done c i t es : good_cut_round c -> rready (ct_message c) (ct_response c) (rp_lines (ct_response c)) (blen (ct_data c)) (blen (ct_seen c)) t -> rbody_events i (ct_response c) (ct_data c) es ->
  (forall t', t' = t \/ t' = rspent 0 t -> asked (ct_message c) t' /\ cut_answered c t' /\ is_unfinished t' = true) /\ cut_reply_events i c es.
Proof.
  intros (Gx & _ & _ & (z & _ & Ez) & _) Rd (he & bs & (hs & H1 & ->) & H2 & H3 & ->).
  assert (Ls : blen (ct_seen c) + 0 < 2 ^ 64).
  { unfold ct_exchanges in Gx. apply Forall_app in Gx as [_ Gx]. inversion_clear Gx as [|? ? [_ G] _]. cbn [snd fst] in G. apply good_reply_small in G as [Lc _]. rewrite Ez in Lc. unfold blen in *. rewrite app_length in Lc. lia. }
  assert (A : forall t, rready (ct_message c) (ct_response c) (rp_lines (ct_response c)) (blen (ct_data c)) (blen (ct_seen c)) t -> asked (ct_message c) t /\ cut_answered c t /\ is_unfinished t = true).
  { clear. intros t [R1 R2 R3 R4 R5 [R6 _] R7 R8 R9 R10 R11]. split; [exact R1|]. split; [constructor; assumption|]. apply unfinished_b. split; [left; rewrite (ho_progress _ _ R1); discriminate|now right]. }
  split; [|exists hs, bs; split; [exact H1|]; split; [exact H2|]; split; [exact H3|]; unfold rline_events, ev_rheader, ev_rstart; rewrite <- !app_assoc; reflexivity].
  intros t' [-> | ->]; [now apply A|apply A; rewrite <- (N.add_0_r (blen (ct_seen c))); now apply rready_spent].
Qed.
Lemma cut_round_runs e n tr T z s c : yes e -> level n tr T z s -> all_over n T -> good_cut_round c -> Forall (line_limits e) (ct_exchanges c) ->
  n + N.of_nat (length (ct_whole c) + 1) < 2 ^ 64 -> N.of_nat z + N.of_nat (length (ct_whole c) + 1) <= c_max_tx (e_cfg e) ->
  exists s' s'' t es1 es2 es3, run_ops (cut_round_ops c) e s = (ROk (more (cut_round_ops c)), s') /\ run_op OpClose e s' = (ROk None, s'') /\
    s_trace s' = tr_of (es1 ++ es2 ++ es3) tr /\ stream_events (e_cfg e) n (map fst (ct_exchanges c)) es1 /\ reply_events n (map snd (ct_whole c)) es2 /\
    cut_reply_events (n + N.of_nat (length (ct_whole c))) c es3 /\
    events s'' = events s' ++ (if c_flush (e_cfg e) then [mk_ev HTransactionComplete (n + N.of_nat (length (ct_whole c))) PlNone] else []) /\
    asked (ct_message c) t /\ cut_answered c t /\
    (forall j, j < n -> tx_get j (s_txs s'') = T j) /\
    (forall k x, nth_error (ct_whole c) k = Some x -> over (c_auto_destroy (e_cfg e)) (fun j => tx_get j (s_txs s'')) (n + N.of_nat k) x) /\
    tx_get (n + N.of_nat (length (ct_whole c))) (s_txs s'') = if c_flush (e_cfg e) && c_auto_destroy (e_cfg e) then None else Some t.
Proof.
  intros Y [Lq (P1 & P2 & P3 & P4 & P5 & P6) Lf Lk] Al Gc Lim Ix Sz. assert (Gc' := Gc). destruct Gc' as (G & Ch & Ec & (lost & Nl & El) & Eu & Nu & Cu & Ed & Nd & Cd & Ad).
  set (xs := ct_exchanges c) in *. set (d := c_auto_destroy (e_cfg e)). set (ws := ct_whole c) in *. set (m := ct_message c) in *. set (r := ct_response c) in *.
  assert (Lx : length xs = (length ws + 1)%nat) by (unfold xs, ct_exchanges; rewrite app_length; reflexivity). rewrite <- Lx in *.
  assert (Ln : length (map fst xs) = length xs) by apply map_length.
  assert (R1 : room e n (mk_ctx T (n, s_resp s, false) z) (map fst xs)).
  { constructor; cbn [cx_rest cx_size cx_table fst snd]; rewrite ?Ln; try assumption.
    - apply Forall_forall. intros m0 I. apply in_map_iff in I as (x & <- & I). rewrite Forall_forall in G. now apply G.
    - apply Forall_forall. intros m0 I. apply in_map_iff in I as (x & <- & I). rewrite Forall_forall in Lim. destruct (Lim x I) as (L1 & L2 & _). now split.
    - intro Z. rewrite Z in P3. destruct P3; discriminate. }
  pose proof (@pa_idle (e_cfg e) n _ tr (map fst xs) s Lq) as P. rewrite <- Eu, <- (app_nil_r (concat _)) in P.
  destruct (stream_calls e (ct_up c) Y n _ tr (map fst xs) [] s R1 Nu) as (s1 & done & ms' & i1 & C1 & tr1 & H1 & E1 & T1 & Q1); [|exact P|].
  { intros a b Eab _ before m0 after y Em. exact (Cu a b before m0 after y Eab Em). }
  apply paused_end in Q1 as [-> Q1]. rewrite app_nil_r in E1. subst done. destruct (told_facts _ _ _ _ _ _ _ T1) as (Ei & (es1 & -> & Se) & Tx & Ti). destruct (told_more _ _ _ _ _ _ _ T1) as (Tm & Tr & Ts). cbn [cx_rest cx_size cx_table] in *. rewrite Ln in *. clear P R1.
  pose proof (keys_run (map (fun c => OpReq (pd_slice c)) (ct_up c)) e s Lk) as K1. rewrite H1 in K1. cbn [snd] in K1. subst i1.
  destruct Q1 as [D1 D2 D3 D4 D5 D6 D7 D8 D9 D10 D11]. rewrite Tr in D10. unfold outside in D10. injection D10 as O1 O2 O3.
  set (C2 := mk_ctx (fun j => tx_get j (s_txs s1)) (n + N.of_nat (length xs), s_req s1, false) (length (s_txs s1))).
  assert (Qr : rresting [] n (tr_of es1 tr) C2 s1) by (constructor; rewrite ?O2; try assumption; [left; split; [reflexivity|split; [exact K1|apply Nat.le_refl]]|unfold r_outside, C2; cbn [cx_rest]; congruence|reflexivity]).
  assert (R2 : rroom e n C2 xs).
  { constructor; [exact G| |exact Ix|reflexivity|].
    - apply Forall_forall. intros x I. rewrite Forall_forall in Lim. destruct (Lim x I) as (_ & _ & L). exact L.
    - intros k x Hk. destruct (Tx k (fst x)) as (t & Ht & Ho); [now apply map_nth_error|]. exists t. split; [|exact (holds_awaits _ _ Ho)]. unfold C2. cbn [cx_table]. rewrite D11; [exact Ht|].
      assert (k < length xs)%nat by (apply nth_error_Some; congruence). lia. }
  pose proof (ra_idle n C2 (tr_of es1 tr) xs s1 Qr) as P.
  replace (xtexts xs) with (concat (ct_down c) ++ ct_rest c) in P by (rewrite Ed; unfold xtexts, xs, ct_exchanges, rtexts; rewrite !map_app, concat_app; cbn [map concat snd]; rewrite app_nil_r; unfold response_text; fold r; rewrite Ec, <- !app_assoc; reflexivity).
  destruct (rstream_calls e (ct_down c) Y n C2 (tr_of es1 tr) xs (ct_rest c) s1 R2 Nd) as (s2 & done & xs' & i2 & C3 & tr2 & H2 & E2 & T2 & Q2); [| |exact P|].
  { intros a b Eab _ before x after y Em Hy. rewrite Em in *. apply (Cd a b (map snd before) (snd x) (map snd after) y Eab); [|exact Hy]. now rewrite map_app. }
  { intros a x b Eab before x0 after y tl Em Hb -> Ny Et. apply (Ad a y tl b (map snd before) (snd x0) (map snd after) Eab Ny); [|exact Hb|exact Et]. rewrite Em. now rewrite map_app. }
  assert (Nr : ct_rest c <> []). { intro Z. rewrite Z, app_nil_r in Ec. unfold content_text in Ec. rewrite El, <- app_assoc in Ec. apply (f_equal (@length N)) in Ec. rewrite !app_length in Ec. destruct lost; [congruence|cbn in Ec; lia]. }
  assert (Ms : exists l, xs' = l ++ [(m, r)]).
  { destruct xs' as [|x l] using rev_ind; [|unfold xs, ct_exchanges in E2; fold m r in E2; rewrite app_assoc in E2; apply app_inj_tail in E2 as [_ <-]; eauto]. exfalso. remember (@nil (message * response)) as xs0 eqn:Em0 in Q2. destruct Q2; try discriminate Em0. subst xs0. apply Nr. reflexivity. }
  assert (Gr : good_response m r). { unfold xs, ct_exchanges in G. apply Forall_app in G as [_ G]. inversion_clear G as [|? ? [_ Gr] _]. exact Gr. }
  destruct (rpaused_cut _ _ _ _ m r (ct_seen c) (ct_rest c) lost _ Q2 Ms Gr Ch Ec Nl El) as (-> & x & t & es & M & B & Rd & Be). unfold xs, ct_exchanges in E2. apply app_inj_tail in E2 as [<- _].
  destruct (rtold_facts _ _ _ _ _ _ _ _ T2) as (Ei & (es2 & Et & Re) & Ux & Ui & Ur & Us). subst i2. fold ws in Re, Ux, Ui, M, Be. rewrite Et in M. unfold C2 in Ux, Ui, Ur, Us. cbn [cx_rest cx_size cx_table] in Ux, Ui, Ur, Us. fold d in Ux, Us. clear P R2 Qr.
  pose proof (keys_run (map (fun c => OpResp (pd_slice c)) (ct_down c)) e s1 K1) as K2. rewrite H2 in K2. cbn [snd] in K2.
  set (i := n + N.of_nat (length ws)) in *. destruct (cut_reply_done c i t es Gc Rd Be) as (A & Ce).
  destruct M as [M1 M2 M3 M4 M5 M6 M7 M8 M9 M10 M11 M12]. rewrite Ur in M10. unfold r_outside in M10. injection M10 as V1 V2 V3.
  destruct (close_first e s2) as (s3 & H3 & O3' & T3 & L3); [rewrite V2; assumption|exact M3|rewrite V2; assumption|rewrite V2; assumption|rewrite V2; assumption|].
  unfold outside in O3'. injection O3' as W1 W2 W3.
  destruct (close_in_chunks e s3 t) as (s4 & t' & H4 & T4 & Ht & G4 & Ot4); [rewrite W2; reflexivity|unfold in_chunks; rewrite W2; exact B|rewrite W2; exact M4|rewrite W1, M7; exact (looked_some _ _ _ _ _ _ L3 M8)|].
  rewrite W1, M7 in G4, Ot4.
  assert (Cl : closing e s2 = (ROk SsData, s4)).
  { unfold closing. unfold bind in H3 |- *. destruct (close_status SReq e s2) as [[u|u| |] a]; try discriminate H3. destruct (close_status SResp e a) as [[v|v| |] b]; try discriminate H3. rewrite H3. exact H4. }
  destruct (close_flush e s2 _ s4 Cl K2) as (s5 & is & H5 & Ev & Fi & Gj).
  destruct (A t' Ht) as (A1 & A2 & A3). rewrite V1 in L3.
  assert (Iw : i < n + N.of_nat (length xs)) by (unfold i; lia).
  assert (Tj : forall j, j <> i -> j <> n + N.of_nat (length xs) -> tx_get j (s_txs s4) = cx_table C3 j) by (intros j N1 N2; rewrite Ot4 by exact N1; rewrite (looked_other _ _ _ _ _ L3 N2); now apply M11).
  assert (Sn : forall x, nth_error ws x <> None -> (x < length ws)%nat) by (intros x0; apply nth_error_Some).
  assert (Uf : forall j, (exists t, tx_get j (s_txs s4) = Some t /\ is_unfinished t = true) <-> j = i).
  { intro j. split; [|intros ->; eauto]. intros (t0 & G0 & U0). destruct (N.eq_dec j i) as [E | Nj]; [exact E|exfalso].
    destruct (N.eq_dec j (n + N.of_nat (length xs))) as [-> | Nj'].
    - assert (G1 : tx_get (n + N.of_nat (length xs)) (s_txs s2) = None \/ tx_get (n + N.of_nat (length xs)) (s_txs s2) = Some tx_new).
      { rewrite M11 by exact Nj. rewrite Ui by (unfold i; lia). destruct D8 as [[D8 _] | [D8 _]]; rewrite D8; tauto. }
      rewrite Ot4 in G0 by exact Nj. assert (t0 = tx_new); [|subst t0; discriminate U0].
      destruct G1 as [G1 | G1]; [|rewrite (looked_some _ _ _ _ _ _ L3 G1) in G0; congruence]. destruct L3 as [L3 | (_ & _ & L3)]; rewrite L3 in G0; [congruence|rewrite tx_get_put in G0; congruence].
    - rewrite Tj in G0 by assumption. unfold is_unfinished in U0. assert (Cp : is_complete t0 = true); [|rewrite Cp, Bool.andb_false_r in U0; discriminate].
      destruct (N.lt_ge_cases j n) as [L | L]; [rewrite Ui, D11, Ti in G0 by lia; exact (Al j t0 L G0)|].
      destruct (N.lt_ge_cases j i) as [L' | L'].
      + destruct (nth_error ws (N.to_nat (j - n))) as [x0|] eqn:Ek; [|apply nth_error_None in Ek; unfold i in L'; lia]. specialize (Ux _ _ Ek). replace (n + N.of_nat (N.to_nat (j - n))) with j in Ux by lia.
        destruct d; [congruence|]. destruct Ux as (t1 & G1 & A4 & A5). rewrite G0 in G1. injection G1 as ->. exact (is_complete_of _ _ _ A4 A5).
      + exfalso. rewrite Ui, D11, Tm, Lf in G0 by (unfold i in *; lia). discriminate. }
  exists s2, s5, t', es1, es2, es. split; [unfold cut_round_ops, more; rewrite (run_ops_app _ _ _ _ _ _ _ _ H1 H2), map_app, !map_map; reflexivity|]. split; [exact H5|].
  split; [rewrite M9, <- !tr_of_app; reflexivity|]. split; [exact Se|]. split; [exact Re|]. split; [exact Ce|].
  assert (Is : is = if c_flush (e_cfg e) then [i] else []).
  { destruct (c_flush (e_cfg e)); [|exact Fi]. destruct Fi as [F1 F2]. apply only_one; [exact F1|]. intro j. rewrite F2. apply Uf. }
  assert (Fj : forall j, j <> i -> flushed e is j = false).
  { intros j Nj. unfold flushed. rewrite Is. destruct (c_flush (e_cfg e)); [|reflexivity]. cbn [existsb]. replace (j =? i) with false by (symmetry; now apply N.eqb_neq). now rewrite !Bool.andb_false_r. }
  split; [rewrite Ev; unfold events; rewrite T4, T3, Is; destruct (c_flush (e_cfg e)); reflexivity|]. split; [exact A1|]. split; [exact A2|]. split; [|split].
  - intros j Hj. rewrite Gj, Fj, Tj, Ui, D11, Ti by (unfold i; lia). reflexivity.
  - intros k x0 Hk. assert (k < length ws)%nat by (apply nth_error_Some; congruence). unfold over. rewrite Gj, Fj, Tj by (unfold i; lia). exact (Ux k x0 Hk).
  - rewrite Gj. unfold flushed. rewrite Is. destruct (c_flush (e_cfg e)); [|exact G4]. cbn [existsb andb]. rewrite N.eqb_refl. destruct (c_auto_destroy (e_cfg e)); [reflexivity|exact G4].
Qed.

(** * Histories *)
Definition cut_round_run (e : env) (before : list round) (c : cut_round) : Prop :=
  exists s t es1 es2 es3 es4, history e (conversation before ++ cut_round_ops c ++ [OpClose]) = (ROk (all_calls before ++ more (cut_round_ops c) ++ [None]), s) /\
    events s = es1 ++ es2 ++ es3 ++ es4 ++ (if c_flush (e_cfg e) then [mk_ev HTransactionComplete (N.of_nat (length (exchanges before)) + N.of_nat (length (ct_whole c))) PlNone] else []) /\
    conversation_events (e_cfg e) 0 before es1 /\ stream_events (e_cfg e) (N.of_nat (length (exchanges before))) (map fst (ct_exchanges c)) es2 /\
    reply_events (N.of_nat (length (exchanges before))) (map snd (ct_whole c)) es3 /\
    cut_reply_events (N.of_nat (length (exchanges before)) + N.of_nat (length (ct_whole c))) c es4 /\
    (forall k m r, nth_error (exchanges before ++ ct_whole c) k = Some (m, r) ->
      if c_auto_destroy (e_cfg e) then tx_get (N.of_nat k) (s_txs s) = None
      else exists t, tx_get (N.of_nat k) (s_txs s) = Some t /\ asked m t /\ answered r t) /\
    asked (ct_message c) t /\ cut_answered c t /\
    tx_get (N.of_nat (length (exchanges before)) + N.of_nat (length (ct_whole c))) (s_txs s) = if c_flush (e_cfg e) && c_auto_destroy (e_cfg e) then None else Some t.
Lemma cut_round_parsed_yes e before c : yes e -> Forall good_round before -> good_cut_round c -> cut_round_fits e before c -> cut_round_run e before c.
Proof.
  intros Y G Gc ((F1 & F2 & F3) & B1 & B2 & B3). destruct (open_level e) as (s0 & H0 & L0).
  destruct (talk_runs_size e before Y 0 [] _ 0%nat s0 L0 G F1 F2 F3) as (s1 & T1 & z & es1 & H1 & Ce & L & _ & X & Z). rewrite N.add_0_l in L.
  assert (X' : forall k x, nth_error (exchanges before) k = Some x -> over (c_auto_destroy (e_cfg e)) T1 (N.of_nat k) x) by (intros k x Hk; specialize (X k x Hk); now rewrite N.add_0_l in X).
  destruct (cut_round_runs e _ _ _ _ _ c Y L (over_complete _ _ _ X') Gc B1 B2) as (s2 & s3 & t & es2 & es3 & es4 & H2 & H3 & Tr & Se & Re & Cu & Ev & A1 & A2 & Ot & Ow & Gt); [rewrite Z; destruct (c_auto_destroy _); lia|].
  set (n := N.of_nat (length (exchanges before))) in *.
  exists s3, t, es1, es2, es3, es4. split; [|split; [|split; [exact Ce|split; [exact Se|split; [exact Re|split; [exact Cu|split; [|split; [exact A1|split; [exact A2|exact Gt]]]]]]]]].
  - assert (Hc : run_ops [OpClose] e s2 = (ROk [None], s3)) by (cbn [run_ops]; unfold bind; rewrite H3; reflexivity).
    unfold history, conversation, all_calls. cbn [run_ops app map]. unfold bind at 1. rewrite H0. unfold bind at 1. erewrite run_ops_app; [|exact H1|eapply run_ops_app; [exact H2|exact Hc]]. reflexivity.
  - rewrite Ev. rewrite (events_tr_of (es1 ++ es2 ++ es3 ++ es4) s2) by (rewrite Tr, <- tr_of_app; reflexivity). now rewrite <- !app_assoc.
  - intros k m r Hk. destruct (Nat.lt_ge_cases k (length (exchanges before))) as [Lk | Lk].
    + rewrite nth_error_app1 in Hk by exact Lk. rewrite Ot by (unfold n; lia). exact (X' k (m, r) Hk).
    + rewrite nth_error_app2 in Hk by exact Lk. specialize (Ow _ _ Hk). unfold over in Ow. cbn [fst snd] in Ow. replace (n + N.of_nat (k - length (exchanges before))) with (N.of_nat k) in Ow by (unfold n; lia). exact Ow.
Qed.
Lemma cut_round_parsed e before c : accepting e -> Forall good_round before -> good_cut_round c -> cut_round_fits e before c -> cut_round_run e before c.
Proof.
  intros A G Gc F. destruct (cut_round_parsed_yes (mute e) before c (yes_mute e) G Gc F) as (s & t & es1 & es2 & es3 & es4 & H & Ee & Ce & Se & Re & Cu & D & A1 & A2 & Gt).
  match type of H with history _ ?l = _ => destruct (history_mute e l A) as [H1 H2] end. rewrite H in H1, H2. cbn [fst snd] in H1, H2. apply similar_txs in H2 as [H2 H3].
  match type of H with history _ ?l = _ => exists (snd (history e l)) end. exists t, es1, es2, es3, es4. split; [rewrite <- H1; apply surjective_pairing|]. rewrite H3. split; [exact Ee|]. split; [now apply conversation_events_mute|]. split; [now apply stream_events_mute|]. split; [exact Re|]. split; [exact Cu|].
  split; [intros k m r Hk; rewrite H2; exact (D k m r Hk)|]. split; [exact A1|]. split; [exact A2|]. rewrite H2. exact Gt.
Qed.
