(** Interim responses: what follows them is read as if they had not been sent. *)
From Verif Require Import Base Spec SpecTx SpecMsg SpecResp SpecConnect SpecInterim ModelUtil ModelBstr ModelParsers ModelHeaders ModelState ModelTx ModelConn SpecConn ProofsBase ProofsBytes ProofsParsers ProofsHeaders ProofsTx ProofsConn ProofsCore ProofsLoop ProofsHist ProofsEval ProofsBody ProofsHead ProofsFrame ProofsStream ProofsChunk ProofsMsg ProofsRStream ProofsRHead ProofsRBody ProofsRMsg ProofsQuiet ProofsTalk.
From Verif Require Import ProofsInterim.

(** The same state, had no interim response been seen. *)
Definition unseen (tr : list (event * status)) (s : st) : st := set_s_trace tr (set_s_resp (set_d_recv None (s_resp s)) s).
Definition traced (tr : list (event * status)) : list event := rev (map fst tr).
Lemma traced_of es tr : traced (tr_of es tr) = traced tr ++ es.
Proof.
  revert tr. induction es as [|x es IH]; intro tr; [now rewrite app_nil_r|]. change (x :: es) with ([x] ++ es). rewrite tr_of_app, IH. unfold traced at 1. cbn. now rewrite <- app_assoc.
Qed.
Lemma line_call_alike e C s r tr tr0 tail i t rv : yes e -> accepting e -> good_status r -> rmile StLine rv [] None i t tr C s -> blen (status_line_text r) <= c_field_limit (e_cfg e) ->
  let o := OpResp (pd_slice (status_line_text r ++ tail)) in
  fst (run_op o e s) = fst (run_op o e (unseen tr0 s)) /\
  since (traced tr ++ [mk_ev HResponseLine i PlNone], traced tr0 ++ [mk_ev HResponseLine i PlNone]) (snd (run_op o e s)) (snd (run_op o e (unseen tr0 s))).
Proof.
  intros Y A G M Lim. cbv zeta. set (c := status_line_text r ++ tail). assert (Lc : 0 < blen c) by (unfold c, status_line_text, blen; cbn [app s2b]; rewrite ?app_length; cbn; lia).
  assert (M0 : rmile StLine None [] None i t tr0 C (unseen tr0 s)).
  { destruct M as [M1 M2 M3 M4 M5 M6 M7 M8 M9 M10 M11 M12]. constructor; try assumption; reflexivity. }
  assert (Lv : forall z, rlive (d_status (s_resp z)) -> data_call SResp (pd_slice c) e z = data_loop SResp (loop_fuel SResp (opened SResp c z)) e (opened SResp c z)).
  { intros z Hz. apply data_call_bytes; [exact Lc|]. cbn [s_dir]. destruct Hz as [-> | ->]; auto. }
  cbn [run_op]. unfold bind. rewrite (Lv s), (Lv (unseen tr0 s)) by (apply M || apply M0). clear Lv.
  assert (Fu : loop_fuel SResp (opened SResp c s) = loop_fuel SResp (opened SResp c (unseen tr0 s))) by reflexivity. rewrite <- Fu. clear Fu.
  assert (Fs : exists n, loop_fuel SResp (opened SResp c s) = S n) by (unfold loop_fuel; eexists; rewrite Nat.mul_comm; rewrite Nat.add_comm; cbn [Nat.add Nat.mul]; reflexivity).
  destruct Fs as [n ->]. cbn [data_loop]. unfold bind.
  assert (R : rest_of c ((line_body r ++ [13; 10]) ++ tail) 0 0 (opened SResp c s)) by (rewrite <- status_line_body; apply ropened_rest).
  assert (R0 : rest_of c ((line_body r ++ [13; 10]) ++ tail) 0 0 (opened SResp c (unseen tr0 s))) by (rewrite <- status_line_body; apply ropened_rest).
  destruct (rline_step e C _ c r tr [] (line_body r) tail 0 0 i t rv Y G (proj1 (ropened_mile _ _ _ _ _ _ _ _ c _ M)) R eq_refl Lim) as [lg ->].
  destruct (rline_step e C _ c r tr0 [] (line_body r) tail 0 0 i t None Y G (proj1 (ropened_mile _ _ _ _ _ _ _ _ c _ M0)) R0 eq_refl Lim) as [lg0 ->].
  match goal with |- context [data_loop SResp n e ?x] => set (s1 := x) end. match goal with |- context [data_loop SResp n e (past_line ?a ?b ?c ?d lg0 ?f)] => set (s2 := past_line a b c d lg0 f) end.
  assert (Si : since (traced tr ++ [mk_ev HResponseLine i PlNone], traced tr0 ++ [mk_ev HResponseLine i PlNone]) s1 s2).
  { split; [reflexivity|]. exists []. rewrite !app_nil_r. destruct M as [_ _ _ _ _ _ M7 _ M9 _ _ _]. unfold events, s1, s2, past_line, traced. cbn. rewrite M7, M9. split; reflexivity. }
  clearbody s1 s2. destruct (com_data_loop SResp n e e s1 s2 A A eq_refl _ Si) as [E1 E2].
  destruct (data_loop SResp n e s1) as [x1 z1]. destruct (data_loop SResp n e s2) as [x2 z2]. cbn [fst snd] in *. subst x2. destruct x1; (split; [reflexivity|exact E2]).
Qed.
Lemma line_calls_alike e C s r tr tr0 cs i t rv : yes e -> accepting e -> good_status r -> rmile StLine rv [] None i t tr C s -> blen (status_line_text r) <= c_field_limit (e_cfg e) -> line_first r cs ->
  fst (run_ops (resps cs) e s) = fst (run_ops (resps cs) e (unseen tr0 s)) /\
  since (traced tr ++ [mk_ev HResponseLine i PlNone], traced tr0 ++ [mk_ev HResponseLine i PlNone]) (snd (run_ops (resps cs) e s)) (snd (run_ops (resps cs) e (unseen tr0 s))).
Proof.
  intros Y A G M Lim (tail & rest & ->). destruct (line_call_alike e C s r tr tr0 tail i t rv Y A G M Lim) as [E1 E2]. unfold resps. cbn [map run_ops]. unfold bind at 1 3 5 7.
  destruct (run_op _ e s) as [x1 z1]. destruct (run_op _ e (unseen tr0 s)) as [x2 z2]. cbn [fst snd] in *. subst x2.
  destruct x1 as [x| | |]; try (split; [reflexivity|exact E2]). unfold bind.
  destruct (com_run_ops (map (fun c => OpResp (pd_slice c)) rest) e e z1 z2 A A eq_refl _ E2) as [E3 E4].
  destruct (run_ops _ e z1) as [y1 w1]. destruct (run_ops _ e z2) as [y2 w2]. cbn [fst snd] in *. subst y2. destruct y1; (split; [reflexivity|exact E4]).
Qed.
Lemma level_bare n tr T z s s' : level n tr T z s -> SpecConn.bare s' = SpecConn.bare s -> level n (s_trace s') T z s'.
Proof.
  intros [[D1 D2 D3 D4 D5 D6 D7 D8 D9 D10 D11] L2 L3 L4] E. destruct s as [rq rs oe cc ci ri pi txs cf si so tr1 lg inp]. destruct s' as [rq' rs' oe' cc' ci' ri' pi' txs' cf' si' so' tr1' lg' inp'].
  unfold SpecConn.bare in E. cbn in E. injection E as -> -> -> -> -> -> -> -> -> -> -> ->. cbn in *. unfold outside in *. cbn in *. constructor; cbn; try assumption. constructor; cbn; try assumption; reflexivity.
Qed.
(** * A round with interim responses *)
Lemma interim_round_runs e n tr T z s rd ns r rs : yes e -> accepting e -> level n tr T z s -> good_round rd -> Forall (line_limits e) (rd_exchanges rd) -> n + N.of_nat (length (rd_exchanges rd)) < 2 ^ 64 ->
  N.of_nat z + N.of_nat (length (rd_exchanges rd)) <= c_max_tx (e_cfg e) ->
  ns <> [] -> Forall good_interim ns -> Forall (fun n => blen (head_text (in_head n)) <= c_field_limit (e_cfg e)) ns -> rd_answers rd = r :: rs -> line_first r (rd_down rd) ->
  exists s' T' es1 es2 ies, run_ops (reqs (rd_up rd) ++ interim_ops ns ++ resps (rd_down rd)) e s = (ROk (more (reqs (rd_up rd) ++ interim_ops ns ++ resps (rd_down rd))), s') /\
    stream_events (e_cfg e) n (rd_asked rd) es1 /\ interim_events n ns ies /\ reply_events n (rd_answers rd) (ev_rstart n :: es2) /\ events s' = traced tr ++ es1 ++ [ev_rstart n] ++ ies ++ es2 /\
    level (n + N.of_nat (length (rd_exchanges rd))) (s_trace s') T' (if c_auto_destroy (e_cfg e) then z else (z + length (rd_exchanges rd))%nat) s' /\
    (forall j, j < n -> T' j = T j) /\ (forall k x, nth_error (rd_exchanges rd) k = Some x -> over (c_auto_destroy (e_cfg e)) T' (n + N.of_nat k) x).
Proof.
  intros Y A [Lq (P1 & P2 & P3 & P4 & P5 & P6) Lf Lk] (G & Eu & Nu & Cu & Ed & Nd & Cd & Ad) Lim Ix Sz Nn Gn Ln0 Ea Lf1. set (xs := rd_exchanges rd) in *. set (d := c_auto_destroy (e_cfg e)).
  assert (Ln : length (rd_asked rd) = length xs) by apply map_length.
  assert (R1 : room e n (mk_ctx T (n, s_resp s, false) z) (rd_asked rd)).
  { constructor; cbn [cx_rest cx_size cx_table fst snd]; rewrite ?Ln; try assumption.
    - apply Forall_forall. intros m I. apply in_map_iff in I as (x & <- & I). rewrite Forall_forall in G. now apply G.
    - apply Forall_forall. intros m I. apply in_map_iff in I as (x & <- & I). rewrite Forall_forall in Lim. destruct (Lim x I) as (L1 & L2 & _). now split.
    - intro Z. rewrite Z in P3. destruct P3; discriminate. }
  pose proof (@pa_idle (e_cfg e) n _ tr (rd_asked rd) s Lq) as P. rewrite <- Eu, <- (app_nil_r (concat _)) in P.
  destruct (stream_calls e (rd_up rd) Y n _ tr (rd_asked rd) [] s R1 Nu) as (s1 & done & ms' & i1 & C1 & tr1 & H1 & E1 & T1 & Q1); [|exact P|].
  { intros a b Eab _ before m after y Em. exact (Cu a b before m after y Eab Em). }
  apply paused_end in Q1 as [-> Q1]. rewrite app_nil_r in E1. subst done. destruct (told_facts _ _ _ _ _ _ _ T1) as (Ei & (es1 & -> & Se) & Tx & Ti). destruct (told_more _ _ _ _ _ _ _ T1) as (Tm & Tr & Ts). cbn [cx_rest cx_size cx_table] in *. rewrite Ln in *. clear P R1.
  pose proof (keys_run (map (fun c => OpReq (pd_slice c)) (rd_up rd)) e s Lk) as K1. rewrite H1 in K1. cbn [snd] in K1. subst i1.
  destruct Q1 as [D1 D2 D3 D4 D5 D6 D7 D8 D9 D10 D11]. rewrite Tr in D10. unfold outside in D10. injection D10 as O1 O2 O3.
  set (C2 := mk_ctx (fun j => tx_get j (s_txs s1)) (n + N.of_nat (length xs), s_req s1, false) (length (s_txs s1))).
  assert (Qr : rresting [] n (tr_of es1 tr) C2 s1) by (constructor; rewrite ?O2; try assumption; [left; split; [reflexivity|split; [exact K1|apply Nat.le_refl]]|unfold r_outside, C2; cbn [cx_rest]; congruence|reflexivity]).
  assert (Hold : forall k x, nth_error xs k = Some x -> exists t, cx_table C2 (n + N.of_nat k) = Some t /\ awaits (fst x) t).
  { intros k x Hk. destruct (Tx k (fst x)) as (t & Ht & Ho); [unfold rd_asked; now apply map_nth_error|]. exists t. split; [|exact (holds_awaits _ _ Ho)]. unfold C2. cbn [cx_table]. rewrite D11; [exact Ht|].
    assert (k < length xs)%nat by (apply nth_error_Some; congruence). lia. }
  (* the interim responses *)
  unfold rd_answers in Ea. fold xs in Ea. destruct xs as [|[m r0] xs0] eqn:Exs; [discriminate Ea|]. change xs with (rd_exchanges rd) in Exs. cbn [map] in Ea. injection Ea as -> Ers.
  destruct (Hold 0%nat (m, r) eq_refl) as (t & Ct & Aw). cbn [fst] in Aw. rewrite N.add_0_r in Ct.
  assert (Gm : good_message m) by (inversion_clear G as [|? ? [Gm _] _]; exact Gm).
  assert (Gs : good_status r) by (inversion_clear G as [|? ? [_ Gr] _]; exact (good_status_of _ _ Gr)).
  assert (Lr : blen (status_line_text r) <= c_field_limit (e_cfg e)).
  { inversion_clear Lim as [|? ? (_ & _ & L & _) _]. etransitivity; [|exact L]. cbn [snd]. unfold head_text, blen. rewrite app_length. lia. }
  destruct (iheads e m n C2 ns Y Gm Gn Ln0 t _ s1 Aw (ir_idle n C2 t _ s1 (tr_of es1 tr) Qr Ct eq_refl)) as (s2 & t2 & ies & H2 & Ie & Aw2 & _ & Mx).
  destruct (Mx (or_introl Nn)) as (rv & M2). clear Mx. set (tri := tr_of ies (tr_of [ev_rstart n] (tr_of es1 tr))) in *.
  pose proof (keys_run (interim_ops ns) e s1 K1) as K2. rewrite H2 in K2. cbn [snd] in K2.
  (* the answers *)
  set (tr0 := tr_of [ev_rstart n] (tr_of es1 tr)) in *. set (s0 := unseen tr0 s2).
  set (C3 := mk_ctx (fun j => if j =? n then Some t2 else cx_table C2 j) (cx_rest C2) (cx_size C2)).
  assert (M0 : rmile StLine None [] None n (started t2) tr0 C3 s0).
  { destruct M2 as [M1 M2 M3 M4 M5 M6 M7 M8 M9 M10 M11 M12]. constructor; try assumption; try reflexivity.
    intros j Hj. cbn [C3 cx_table]. destruct (j =? n) eqn:E; [lia|]. now apply M11. }
  assert (R2 : rroom e n C3 ((m, r) :: xs0)).
  { constructor; [exact G| |exact Ix|reflexivity|].
    - apply Forall_forall. intros x I. rewrite Forall_forall in Lim. destruct (Lim x I) as (_ & _ & L). exact L.
    - intros k x Hk. cbn [C3 cx_table]. destruct k as [|k].
      + rewrite N.add_0_r, N.eqb_refl. injection Hk as <-. exists t2. auto.
      + destruct (n + N.of_nat (S k) =? n) eqn:E; [lia|]. now apply Hold. }
  assert (Ct3 : cx_table C3 n = Some t2) by (cbn [C3 cx_table]; now rewrite N.eqb_refl).
  pose proof (ra_line n C3 (tr_of es1 tr) m r xs0 [] (line_body r) t2 s0 eq_refl Ct3 M0) as P.
  replace ((line_body r ++ [13; 10]) ++ rafter_line r ++ xtexts xs0) with (concat (rd_down rd) ++ []) in P.
  2:{ rewrite app_nil_r, Ed. unfold rd_answers. rewrite Exs. change (rtexts (map snd ((m, r) :: xs0))) with (xtexts ((m, r) :: xs0)). rewrite xtexts_cons. now rewrite <- !app_assoc. }
  destruct (rstream_calls e (rd_down rd) Y n C3 (tr_of es1 tr) ((m, r) :: xs0) [] s0 R2 Nd) as (s3 & done & xs' & i2 & C4 & tr2 & H3 & E2 & T2 & Q2); [| |exact P|].
  { intros a b Eab _ before x after y Em Hy. apply (Cd a b (map snd before) (snd x) (map snd after) y Eab); [|exact Hy]. unfold rd_answers. rewrite Exs, Em. now rewrite map_app. }
  { intros a c b Eab before x after y tl Em Hb -> Ny Et. apply (Ad a y tl b (map snd before) (snd x) (map snd after) Eab Ny); [|exact Hb|exact Et]. unfold rd_answers. rewrite Exs, Em. now rewrite map_app. }
  apply rpaused_end in Q2 as [-> Q2]. rewrite app_nil_r in E2. subst done. destruct (rtold_facts _ _ _ _ _ _ _ _ T2) as (Ei & (es2 & -> & Re) & Ux & Ui & Ur & Us). subst i2. fold d in Ux, Us. clear P R2.
  destruct (line_calls_alike e C2 s2 r tri tr0 (rd_down rd) n _ rv Y A Gs M2 Lr Lf1) as [F1 [F2 (D & F3 & F4)]]. fold s0 in F1, F2, F4. unfold resps in F1, F2, F3, F4. rewrite H3 in F1, F2, F4. cbn [fst snd] in F1, F2, F3, F4.
  set (s4 := snd (run_ops (map (fun c => OpResp (pd_slice c)) (rd_down rd)) e s2)) in *.
  pose proof (keys_run (map (fun c => OpResp (pd_slice c)) (rd_down rd)) e s2 K2) as K3. fold s4 in K3.
  assert (H4 : run_ops (map (fun c => OpResp (pd_slice c)) (rd_down rd)) e s2 = (ROk (map (fun _ => Some SsData) (rd_down rd)), s4)) by (unfold s4; rewrite <- F1; apply surjective_pairing).
  assert (Et : s_txs s4 = s_txs s3) by (apply (f_equal s_txs) in F2; exact F2). rewrite Et in K3.
  assert (Ev : es2 = [ev_rstart n; mk_ev HResponseLine n PlNone] ++ D).
  { destruct Q2 as [_ _ _ _ _ _ _ _ F9 _ _]. unfold events in F4. rewrite F9 in F4. change (rev (map fst (tr_of es2 (tr_of es1 tr)))) with (traced (tr_of es2 (tr_of es1 tr))) in F4. unfold tr0 in F4.
    rewrite !traced_of, <- !app_assoc in F4. do 2 apply app_inv_head in F4. rewrite F4. reflexivity. }
  assert (Lv : level (n + N.of_nat (length ((m, r) :: xs0))) (tr_of es2 (tr_of es1 tr)) (cx_table C4) (if d then z else (z + length ((m, r) :: xs0))%nat) s3).
  { set (lx := length ((m, r) :: xs0)) in *. assert (Lx : (1 <= lx)%nat) by (unfold lx; cbn; lia). clearbody lx.
    unfold C3, C2 in Ui, Ur, Us. cbn [cx_rest cx_size cx_table] in Ui, Ur, Us.
    destruct Q2 as [G1 G2 G3 G4 G5 G6 G7 G8 G9 G10 G11]. rewrite Ur in G10. unfold r_outside in G10. injection G10 as V1 V2 V3.
    assert (Uo : cx_table C4 (n + N.of_nat lx) = tx_get (n + N.of_nat lx) (s_txs s1)) by (rewrite Ui by lia; destruct (_ =? n) eqn:E; [lia|reflexivity]).
    constructor; [|repeat split; assumption| |exact K3].
    - constructor; rewrite ?V2; try assumption.
      + cbn [cx_size]. rewrite Uo in G8. assert (W : (length (s_txs s1) <= (if tx_get (n + N.of_nat lx) (s_txs s1) then 1 else 0) + (z + lx))%nat) by (destruct D8 as [[D8 D8'] | [D8 D8']]; rewrite D8; lia).
        destruct G8 as [(G8 & _ & G8') | (G8 & G8' & _ & G8'')].
        { rewrite G8. destruct D8 as [[D8 _] | [D8 _]]; rewrite D8 in *; [left|right]; (split; [reflexivity|]); destruct d; lia. }
        { rewrite G8 in W. left. split; [exact G8'|]. destruct d; lia. }
      + unfold outside. cbn [cx_rest]. congruence.
    - intros j Hj. rewrite Ui by lia. destruct (j =? n) eqn:E; [lia|]. rewrite D11 by lia. rewrite Tm by lia. apply Lf. lia. }
  exists s4, (cx_table C4), es1, (mk_ev HResponseLine n PlNone :: D), ies. split; [|split; [exact Se|split; [exact Ie|split; [|split; [|split; [|split]]]]]].
  - unfold reqs, resps, more in *. rewrite !map_app. erewrite run_ops_app; [|exact H1|erewrite run_ops_app; [reflexivity|exact H2|exact H4]]. rewrite !map_map. reflexivity.
  - unfold rd_answers. rewrite Exs. rewrite Ev in Re. exact Re.
  - rewrite F3. unfold tri, tr0. rewrite !traced_of, <- !app_assoc. reflexivity.
  - eapply level_bare; [exact Lv|exact F2].
  - intros j Hj. rewrite Ui by lia. unfold C3. cbn [cx_table]. destruct (j =? n) eqn:E; [lia|]. unfold C2. cbn [cx_table]. rewrite D11 by lia. now apply Ti.
  - intros k x Hk. exact (Ux k x Hk).
Qed.
