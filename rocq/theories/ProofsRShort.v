(** Responses that end, with the connection, before the length that their head announces. *)
From Verif Require Import ProofsUrl ProofsUri.
From Verif Require Import Base Spec SpecTx SpecConn SpecMsg SpecTwo SpecResp SpecConnect SpecRCut SpecRShort ModelUtil ModelBstr ModelParsers ModelUrl ModelUri ModelHeaders ModelState ModelTx ModelConn ModelHook
  ProofsBase ProofsBstr ProofsParsers ProofsHeaders ProofsTx ProofsConn ProofsCore ProofsLoop ProofsHist ProofsQuiet ProofsEval ProofsBody ProofsHead ProofsFrame ProofsStream ProofsChunk ProofsTwoRuns ProofsMsg ProofsRStream ProofsRHead ProofsRBody ProofsRMsg ProofsTalk ProofsConnect4 ProofsClose ProofsCut ProofsRCut.

(** * Where the response parser waits *)
Lemma rpaused_short i C tr xs m r x y s : rpaused i C tr xs y s -> (exists l, xs = l ++ [(m, r)]) -> rp_content r = Plain (x ++ y) ->
  xs = [(m, r)] /\ exists t es, rmile StClKnown None [] None i t (tr_of es tr) C s /\ rready m r (rp_lines r) (blen x) (blen x) t /\ rbody_events i r x es.
Proof.
  intros P (l0 & El0) Ec0.
  assert (Ly : (length y <= length (content_text (rp_content r)))%nat) by (rewrite Ec0; unfold content_text; cbn [coded_text]; rewrite !app_length; lia).
  assert (Tl : forall l', (length y < length (xtexts (l' ++ [(m, r)])))%nat).
  { intro l'. unfold xtexts, rtexts. rewrite !map_app, concat_app. cbn [map concat snd]. rewrite app_nil_r, response_text_line. unfold rafter_line. rewrite !app_length. cbn [length]. lia. }
  assert (One : forall x0 xs0, x0 :: xs0 = l0 ++ [(m, r)] -> (length (xtexts xs0) <= length y)%nat -> x0 = (m, r) /\ xs0 = []).
  { intros m0 ms0 E L. destruct l0 as [|z0 l]; cbn [app] in E; injection E as -> ->; [now split|]. specialize (Tl l). lia. }
  remember y as Y0 eqn:EY in P.
  destruct P as [xs s Q|m0 r0 xs p l t s El Ct M|m0 r0 xs ls1 ls2 p q t hs s El Eq Nq Hp Eh Rd Tp M|m0 r0 xs b1 b2 t es s Ec Nb Rd Be M L|m0 r0 xs cs la trl ds l t es s Ec Ep Nl Rd Be M|m0 r0 xs cs la trl ds ck l d1 d2 t es s Ec Ep Ed Nd Rd Be M L|m0 r0 xs cs la trl ds ck l x0 y0 t es s Ec Ep Nd Ex0 Ny Rd Be M|m0 r0 xs cs la trl ls1 ls2 p q t es hs s Ec El Eq Nq Hp Eh Rd Tp Be M|m0 r0 m' r' xs p l t es s El Np Rd Es M];
    try (exfalso; destruct (One _ _ El0) as [[= -> ->] ->]; [rewrite <- EY, !app_length; lia|]; congruence).
  - exfalso. specialize (Tl l0). rewrite <- El0, EY in Tl. lia.
  - exfalso. destruct (One _ _ El0) as [[= -> ->] ->]; [rewrite <- EY, !app_length; lia|]. apply (f_equal (@length N)) in EY. unfold rafter_line in EY. rewrite !app_length in EY. cbn [length] in EY. lia.
  - exfalso. assert (0 < length q)%nat by (destruct q; [congruence|cbn; lia]). destruct (One _ _ El0) as [[= -> ->] ->]; [rewrite <- EY, !app_length; lia|]. apply (f_equal (@length N)) in EY. rewrite !app_length in EY. lia.
  - destruct (One _ _ El0) as [[= -> ->] ->]; [rewrite <- EY, !app_length; lia|]. split; [reflexivity|]. change (xtexts []) with (@nil N) in EY. rewrite app_nil_r in EY. subst b2. rewrite Ec in Ec0. injection Ec0 as Ec0. apply app_inv_tail in Ec0 as ->. eauto.
  - exfalso. destruct l0 as [|z0 [|z1 l1]]; cbn [app] in El0; [discriminate|injection El0 as _ -> -> ->|injection El0 as _ _ ->].
    + apply (f_equal (@length N)) in EY. unfold rafter_line in EY. rewrite !app_length in EY. cbn [length] in EY. lia.
    + specialize (Tl l1). apply (f_equal (@length N)) in EY. rewrite !app_length in EY. lia.
Qed.

(** * The call that the response parser gets when the connection is closed *)
Lemma close_short e s i t : yes e -> d_status (s_resp s) = SsClosed -> d_state (s_resp s) = StClKnown -> d_recv (s_resp s) = None -> d_buf (s_resp s) = [] -> s_other_at_end s = false ->
  s_pidx s = i -> i + 1 < 2 ^ 64 -> tx_get i (s_txs s) = Some t -> rclosable t -> NoDup (map fst (s_txs s)) ->
  exists s', data_call SResp pd_default e s = (ROk SsData, s') /\ s_trace s' = tr_of (rclose_events i) (s_trace s) /\
    tx_get i (s_txs s') = (if c_auto_destroy (e_cfg e) then None else Some (rcompleted_tx (grow SResp 0 t))) /\
    (forall j, j <> i -> j <> i + 1 -> tx_get j (s_txs s') = tx_get j (s_txs s)) /\
    (tx_get (i + 1) (s_txs s') = tx_get (i + 1) (s_txs s) \/ tx_get (i + 1) (s_txs s') = Some tx_new).
Proof.
  intros Y D1 D3 D4 D5 D6 D7 Li T Rc Nd. destruct (call_closed SResp e s D1 ltac:(rewrite D1; discriminate)) as [n ->].
  set (g := given SResp s). assert (G1 : d_status (s_resp g) = SsClosed) by exact D1. assert (G3 : d_state (s_resp g) = StClKnown) by exact D3. assert (G4 : d_recv (s_resp g) = None) by exact D4.
  assert (G5 : d_buf (s_resp g) = []) by exact D5. assert (G6 : s_other_at_end g = false) by exact D6. assert (G7 : s_pidx g = i) by exact D7. assert (G8 : s_input g = pd_default) by reflexivity.
  assert (G9 : s_txs g = s_txs s) by reflexivity. assert (G10 : s_trace g = s_trace s) by reflexivity. clearbody g. rewrite <- G9 in *. rewrite <- G10. clear D1 D3 D4 D5 D6 D7 G9 G10 s.
  assert (H1 : handle_state SResp e g = (ROk tt, set_s_txs (tx_set i (grow SResp 0 t) (s_txs g)) (set_s_resp (set_d_state StFinalize (s_resp g)) g))).
  { unfold handle_state, by_side, handle_response_state. unfold bind at 1, get_d at 1. cbn [s_dir]. rewrite G3. unfold response_body_identity_cl_known. unfold bind at 1, input at 1. rewrite G8.
    unfold bind at 1, get_d at 1. cbn [s_dir]. rewrite G1. cbn [sstate_eqb]. change (pd_unconsumed pd_default) with (@None bytes). unfold bind at 1, set_state, upd_d, modify.
    rewrite (body_data_plain SResp e _ t None Y) by (first [exact (rc_cep _ Rc)|cbn; rewrite G7; exact T]). cbn [s_idx opt_len]. cbv zeta iota. rewrite <- G7. reflexivity. }
  apply (step_next SResp) in H1; [|rewrite G8; reflexivity|cbn; rewrite G1; discriminate|discriminate]. rewrite (loop_next _ _ _ _ _ H1). clear H1.
  set (g1 := set_s_dir SResp _ _).
  assert (F1 : d_status (s_resp g1) = SsClosed) by exact G1. assert (F3 : d_state (s_resp g1) = StFinalize) by reflexivity. assert (F4 : d_recv (s_resp g1) = None) by exact G4.
  assert (F5 : d_buf (s_resp g1) = []) by exact G5. assert (F6 : s_other_at_end g1 = false) by exact G6. assert (F7 : s_pidx g1 = i) by exact G7. assert (F8 : s_input g1 = pd_default) by exact G8.
  assert (F9 : s_txs g1 = tx_set i (grow SResp 0 t) (s_txs g)) by reflexivity. assert (F10 : s_trace g1 = s_trace g) by reflexivity. clearbody g1. rewrite <- F10.
  assert (T1 : tx_get (s_pidx g1) (s_txs g1) = Some (grow SResp 0 t)) by (rewrite F7, F9; apply (tx_get_set_eq _ _ _ _ T)).
  assert (O1 : forall j, j <> i -> tx_get j (s_txs g1) = tx_get j (s_txs g)) by (intros j Hj; rewrite F9; now apply tx_get_set_other).
  assert (N1 : NoDup (map fst (s_txs g1))) by (rewrite F9, keys_set; exact Nd).
  assert (Rc1 : rclosable (grow SResp 0 t)) by (destruct Rc; constructor; assumption). set (t1 := grow SResp 0 t) in *. clearbody t1. clear F9 F10 G1 G3 G4 G5 G6 G7 G8.
  assert (H2 : handle_state SResp e g1 = state_response_complete e g1).
  { unfold handle_state, by_side, handle_response_state. unfold bind at 1, get_d at 1. cbn [s_dir]. rewrite F3. unfold response_finalize. unfold bind at 1, input at 1. unfold bind at 1, get_d at 1. cbn [s_dir]. rewrite F8, F1.
    change (pd_is_gap pd_default) with false. cbn [sstate_eqb]. change (pd_as_slice pd_default) with (@nil N). unfold response_finalize_work. unfold check_limit_if_buffered, take_buf. unfold bind at 1. unfold bind at 1, get_d at 1. cbn [s_dir]. rewrite F5. cbn [is_nil negb when]. unfold ret at 1.
    unfold bind at 1. unfold bind at 1, get_d at 1. unfold bind at 1, upd_d at 1, modify at 1. unfold ret at 1. cbn [s_dir]. rewrite F5. cbn [app is_nil]. clear - F5.
    destruct g1 as [rq rs oe cc ci ri pi txs cf si so tr lg inp]. destruct rs as [d1 d2 d3 d4 d5 d6 d7 d8 d9 d10]. cbn in F5. subst d3. reflexivity. }
  rewrite (response_complete_eval e g1 t1 Y T1 Rc1 F4) in H2; [|rewrite F1; discriminate|exact F6].
  apply (step_next SResp) in H2; [|rewrite F8; reflexivity|cbn; rewrite F1; discriminate|discriminate]. rewrite (loop_next _ _ _ _ _ H2). clear H2.
  match goal with |- context [data_loop SResp (S n) e ?z] => destruct (idle_closed e z) as (s' & H & Tr & L); [reflexivity|exact F4|exact F8|] end.
  rewrite (loop_last _ _ _ _ _ _ H). exists s'. split; [reflexivity|]. rewrite F7 in *. split; [exact Tr|].
  cbn in L. unfold wadd in L. rewrite N.mod_small in L by exact Li. set (l4 := if c_auto_destroy (e_cfg e) then _ else _) in L.
  assert (Gi : tx_get i l4 = if c_auto_destroy (e_cfg e) then None else Some (rcompleted_tx t1)).
  { unfold l4. destruct (c_auto_destroy (e_cfg e)); [apply get_del; rewrite keys_set; exact N1|apply (tx_get_set_eq _ _ _ _ T1)]. }
  assert (Go : forall j, j <> i -> tx_get j l4 = tx_get j (s_txs g)).
  { intros j Hj. rewrite <- O1 by exact Hj. unfold l4. destruct (c_auto_destroy (e_cfg e)); [rewrite tx_get_del by exact Hj|]; now apply tx_get_set_other. }
  split; [rewrite (looked_other _ _ _ _ i L) by lia; exact Gi|]. split; [intros j N2 N3; rewrite (looked_other _ _ _ _ j L N3); now apply Go|].
  rewrite <- (Go (i + 1)) by lia. destruct L as [-> | (_ & _ & ->)]; [now left|right; apply tx_get_put].
Qed.

(** * The responses *)
Lemma short_done c i t es : good_short_round c -> rready (ct_message c) (ct_response c) (rp_lines (ct_response c)) (blen (ct_seen c)) (blen (ct_seen c)) t -> rbody_events i (ct_response c) (ct_seen c) es ->
  asked (ct_message c) (rcompleted_tx (grow SResp 0 t)) /\ answered (ct_short c) (rcompleted_tx (grow SResp 0 t)) /\ response_events i (ct_short c) (es ++ rclose_events i).
Proof.
  intros (Gx & Ec & _) Rd Be.
  assert (Ls : blen (ct_seen c) + 0 < 2 ^ 64).
  { unfold ct_exchanges in Gx. apply Forall_app in Gx as [_ Gx]. inversion_clear Gx as [|? ? [_ G] _]. cbn [snd fst] in G. apply good_reply_small in G as [Lc _]. rewrite Ec in Lc. cbn [coded_text] in Lc. unfold blen in *. rewrite app_length in Lc. lia. }
  apply (open_done (ct_message c) (ct_short c) i (grow SResp 0 t) es (ct_seen c) eq_refl); [lia| |].
  - unfold rall_lines. cbn [ct_short rp_lines rp_content trailer_of]. rewrite app_nil_r. change (rp_body (ct_short c)) with (ct_seen c). change (coded_text (Plain (ct_seen c))) with (ct_seen c).
    pose proof (rready_grow _ _ _ _ _ 0 t Ls Ls Rd) as [R1 R2 R3 R4 R5 R6 R7 R8 R9 R10 R11]. rewrite N.add_0_r in R8, R9. constructor; assumption.
  - exists es, []. split; [exact Be|]. split; [reflexivity|]. now rewrite app_nil_r.
Qed.
Lemma short_round_runs e n tr T z s c : yes e -> level n tr T z s -> all_over n T -> good_short_round c -> Forall (line_limits e) (ct_exchanges c) ->
  n + N.of_nat (length (ct_whole c) + 1) < 2 ^ 64 -> N.of_nat z + N.of_nat (length (ct_whole c) + 1) <= c_max_tx (e_cfg e) ->
  exists s' s'' es1 es2, run_ops (cut_round_ops c) e s = (ROk (more (cut_round_ops c)), s') /\ run_op OpClose e s' = (ROk None, s'') /\
    events s'' = map fst (rev (tr_of (es1 ++ es2) tr)) /\ stream_events (e_cfg e) n (map fst (ct_exchanges c)) es1 /\ reply_events n (map snd (ct_whole c) ++ [ct_short c]) es2 /\
    (forall j, j < n -> tx_get j (s_txs s'') = T j) /\
    (forall k x, nth_error (ct_whole c ++ [(ct_message c, ct_short c)]) k = Some x -> over (c_auto_destroy (e_cfg e)) (fun j => tx_get j (s_txs s'')) (n + N.of_nat k) x).
Proof.
  intros Y [Lq (P1 & P2 & P3 & P4 & P5 & P6) Lf Lk] Al Gc Lim Ix Sz. assert (Gc' := Gc). destruct Gc' as (G & Ec & Nr & Eu & Nu & Cu & Ed & Nd & Cd & Ad).
  set (xs := ct_exchanges c) in *. set (d := c_auto_destroy (e_cfg e)). set (ws := ct_whole c) in *. set (m := ct_message c) in *. set (r := ct_response c) in *.
  assert (Lx : length xs = (length ws + 1)%nat) by (unfold xs, ct_exchanges; rewrite app_length; reflexivity). rewrite <- Lx in *.
  assert (Ln : length (map fst xs) = length xs) by apply map_length.
  assert (R1 : room e n (mk_ctx T (n, s_resp s, false) z) (map fst xs)).
  { constructor; cbn [cx_rest cx_size cx_table fst snd]; rewrite ?Ln; try assumption.
    - apply Forall_forall. intros m0 I. apply in_map_iff in I as (x & <- & I). rewrite Forall_forall in G. now apply G.
    - apply Forall_forall. intros m0 I. apply in_map_iff in I as (x & <- & I). rewrite Forall_forall in Lim. destruct (Lim x I) as (L1 & L2 & _). now split.
    - intro Z. rewrite Z in P3. destruct P3; discriminate. }
  pose proof (@pa_idle (e_cfg e) n _ tr (map fst xs) s Lq) as P. rewrite <- Eu, <- (app_nil_r (concat _)) in P.
  destruct (stream_calls e (ct_up c) Y n _ tr (map fst xs) [] s R1 Nu) as (s1 & done & ms' & i1 & C1 & tr1 & H1 & E1 & T1 & Q1); [|exact P|].
  { intros a b Eab _ before m0 after y Em. exact (Cu a b before m0 after y Eab Em). }
  apply paused_end in Q1 as [-> Q1]. rewrite app_nil_r in E1. subst done. destruct (told_facts _ _ _ _ _ _ _ T1) as (Ei & (es1 & -> & Se) & Tx & Ti). destruct (told_more _ _ _ _ _ _ _ T1) as (Tm & Tr & Ts). cbn [cx_rest cx_size cx_table] in *. rewrite Ln in *. clear P R1.
  pose proof (keys_run (map (fun c => OpReq (pd_slice c)) (ct_up c)) e s Lk) as K1. rewrite H1 in K1. cbn [snd] in K1. subst i1.
  destruct Q1 as [D1 D2 D3 D4 D5 D6 D7 D8 D9 D10 D11]. rewrite Tr in D10. unfold outside in D10. injection D10 as O1 O2 O3.
  set (C2 := mk_ctx (fun j => tx_get j (s_txs s1)) (n + N.of_nat (length xs), s_req s1, false) (length (s_txs s1))).
  assert (Qr : rresting [] n (tr_of es1 tr) C2 s1) by (constructor; rewrite ?O2; try assumption; [left; split; [reflexivity|split; [exact K1|apply Nat.le_refl]]|unfold r_outside, C2; cbn [cx_rest]; congruence|reflexivity]).
  assert (R2 : rroom e n C2 xs).
  { constructor; [exact G| |exact Ix|reflexivity|].
    - apply Forall_forall. intros x I. rewrite Forall_forall in Lim. destruct (Lim x I) as (_ & _ & L). exact L.
    - intros k x Hk. destruct (Tx k (fst x)) as (t & Ht & Ho); [now apply map_nth_error|]. exists t. split; [|exact (holds_awaits _ _ Ho)]. unfold C2. cbn [cx_table]. rewrite D11; [exact Ht|].
      assert (k < length xs)%nat by (apply nth_error_Some; congruence). lia. }
  pose proof (ra_idle n C2 (tr_of es1 tr) xs s1 Qr) as P.
  replace (xtexts xs) with (concat (ct_down c) ++ ct_rest c) in P by (rewrite Ed; unfold xtexts, xs, ct_exchanges, rtexts; rewrite !map_app, concat_app; cbn [map concat snd]; rewrite app_nil_r; unfold response_text; fold r; rewrite Ec; unfold content_text; cbn [coded_text]; rewrite app_nil_r, <- !app_assoc; reflexivity).
  destruct (rstream_calls e (ct_down c) Y n C2 (tr_of es1 tr) xs (ct_rest c) s1 R2 Nd) as (s2 & done & xs' & i2 & C3 & tr2 & H2 & E2 & T2 & Q2); [| |exact P|].
  { intros a b Eab _ before x after y Em Hy. rewrite Em in *. apply (Cd a b (map snd before) (snd x) (map snd after) y Eab); [|exact Hy]. now rewrite map_app. }
  { intros a x b Eab before x0 after y tl Em Hb -> Ny Et. apply (Ad a y tl b (map snd before) (snd x0) (map snd after) Eab Ny); [|exact Hb|exact Et]. rewrite Em. now rewrite map_app. }
  assert (Ms : exists l, xs' = l ++ [(m, r)]).
  { destruct xs' as [|x l] using rev_ind; [|unfold xs, ct_exchanges in E2; fold m r in E2; rewrite app_assoc in E2; apply app_inj_tail in E2 as [_ <-]; eauto]. exfalso. remember (@nil (message * response)) as xs0 eqn:Em0 in Q2. destruct Q2; try discriminate Em0. subst xs0. apply Nr. reflexivity. }
  destruct (rpaused_short _ _ _ _ m r (ct_seen c) (ct_rest c) _ Q2 Ms Ec) as (-> & t & es & M & Rd & Be). unfold xs, ct_exchanges in E2. apply app_inj_tail in E2 as [<- _].
  destruct (rtold_facts _ _ _ _ _ _ _ _ T2) as (Ei & (es2 & Et & Re) & Ux & Ui & Ur & Us). subst i2. fold ws in Re, Ux, Ui, M, Be. rewrite Et in M. unfold C2 in Ux, Ui, Ur, Us. cbn [cx_rest cx_size cx_table] in Ux, Ui, Ur, Us. fold d in Ux, Us. clear P R2 Qr.
  pose proof (keys_run (map (fun c => OpResp (pd_slice c)) (ct_down c)) e s1 K1) as K2. rewrite H2 in K2. cbn [snd] in K2.
  set (i := n + N.of_nat (length ws)) in *. destruct (short_done c i t es Gc Rd Be) as (A1 & A2 & Ce). fold m in A1.
  destruct M as [M1 M2 M3 M4 M5 M6 M7 M8 M9 M10 M11 M12]. rewrite Ur in M10. unfold r_outside in M10. injection M10 as V1 V2 V3.
  destruct (close_first e s2) as (s3 & H3 & O3' & T3 & L3); [rewrite V2; assumption|exact M3|rewrite V2; assumption|rewrite V2; assumption|rewrite V2; assumption|].
  unfold outside in O3'. injection O3' as W1 W2 W3. rewrite V1 in L3.
  destruct (close_short e s3 i t Y) as (s4 & H4 & T4 & G4 & Ot4 & Nx4); try (rewrite W2; first [reflexivity|assumption]); [now rewrite W3|now rewrite W1|unfold i; lia|exact (looked_some _ _ _ _ _ _ L3 M8)|exact (rready_closable _ _ _ _ _ _ Rd)|exact (looked_keys _ _ _ _ L3 K2)|].
  fold d in G4. assert (Il : i + 1 = n + N.of_nat (length xs)) by (unfold i; lia). rewrite Il in Ot4, Nx4.
  assert (Cl : closing e s2 = (ROk SsData, s4)).
  { unfold closing. unfold bind in H3 |- *. destruct (close_status SReq e s2) as [[u|u| |] a]; try discriminate H3. destruct (close_status SResp e a) as [[v|v| |] b]; try discriminate H3. rewrite H3. exact H4. }
  destruct (close_flush e s2 _ s4 Cl K2) as (s5 & is & H5 & Ev & Fi & Gj).
  assert (Tj : forall j, j <> i -> j <> n + N.of_nat (length xs) -> tx_get j (s_txs s4) = cx_table C3 j) by (intros j N1 N2; rewrite Ot4 by assumption; rewrite (looked_other _ _ _ _ _ L3 N2); now apply M11).
  assert (Uf : forall j t0, tx_get j (s_txs s4) = Some t0 -> is_unfinished t0 = true -> False).
  { intros j t0 G0 U0. destruct (N.eq_dec j i) as [-> | Nj].
    { rewrite G4 in G0. destruct d; [discriminate|]. assert (E0 : t0 = rcompleted_tx (grow SResp 0 t)) by congruence. clear G0. subst t0. unfold is_unfinished in U0. rewrite (is_complete_of _ _ _ A1 A2), Bool.andb_false_r in U0. discriminate. }
    destruct (N.eq_dec j (n + N.of_nat (length xs))) as [-> | Nj'].
    - assert (G1 : tx_get (n + N.of_nat (length xs)) (s_txs s2) = None \/ tx_get (n + N.of_nat (length xs)) (s_txs s2) = Some tx_new).
      { rewrite M11 by exact Nj. rewrite Ui by (unfold i; lia). destruct D8 as [[D8 _] | [D8 _]]; rewrite D8; tauto. }
      assert (t0 = tx_new); [|subst t0; discriminate U0]. destruct Nx4 as [Nx4 | Nx4]; [|congruence]. rewrite Nx4 in G0.
      destruct G1 as [G1 | G1]; [|rewrite (looked_some _ _ _ _ _ _ L3 G1) in G0; congruence]. destruct L3 as [L3 | (_ & _ & L3)]; rewrite L3 in G0; [congruence|rewrite tx_get_put in G0; congruence].
    - rewrite Tj in G0 by assumption. unfold is_unfinished in U0. assert (Cp : is_complete t0 = true); [|rewrite Cp, Bool.andb_false_r in U0; discriminate].
      destruct (N.lt_ge_cases j n) as [L | L]; [rewrite Ui, D11, Ti in G0 by lia; exact (Al j t0 L G0)|].
      destruct (N.lt_ge_cases j i) as [L' | L'].
      + destruct (nth_error ws (N.to_nat (j - n))) as [x0|] eqn:Ek; [|apply nth_error_None in Ek; unfold i in L'; lia]. specialize (Ux _ _ Ek). replace (n + N.of_nat (N.to_nat (j - n))) with j in Ux by lia.
        destruct d; [congruence|]. destruct Ux as (t1 & G1 & A4 & A5). rewrite G0 in G1. injection G1 as ->. exact (is_complete_of _ _ _ A4 A5).
      + exfalso. rewrite Ui, D11, Tm, Lf in G0 by (unfold i in *; lia). discriminate. }
  assert (Is : is = []).
  { destruct (c_flush (e_cfg e)); [|exact Fi]. destruct Fi as [_ F2]. destruct is as [|j is]; [reflexivity|]. destruct (proj1 (F2 j) (or_introl eq_refl)) as (t0 & G0 & U0). destruct (Uf _ _ G0 U0). }
  assert (Gs : forall j, tx_get j (s_txs s5) = tx_get j (s_txs s4)) by (intro j; rewrite Gj, Is; unfold flushed; cbn [existsb]; now rewrite Bool.andb_false_r).
  exists s2, s5, es1, (es2 ++ es ++ rclose_events i). split; [unfold cut_round_ops, more; rewrite (run_ops_app _ _ _ _ _ _ _ _ H1 H2), map_app, !map_map; reflexivity|]. split; [exact H5|].
  split; [rewrite Ev, Is; cbn [map]; rewrite app_nil_r; unfold events; rewrite <- map_rev, T4, T3, M9, <- !tr_of_app, <- ?app_assoc; reflexivity|]. split; [exact Se|]. split.
  { clear - Re Ce. subst i. revert Re Ce. generalize (map_length snd ws). generalize (map snd ws) as rs. intros rs <-. revert n es2. induction rs as [|r0 rs IH]; intros n es2 Re Ce.
    - inversion_clear Re. cbn [app length] in *. rewrite N.add_0_r in Ce |- *. rewrite <- (app_nil_r (es ++ _)). constructor; [exact Ce|constructor].
    - inversion_clear Re as [|? ? ? e1 e2 A B]. cbn [app length] in *. rewrite <- app_assoc. replace (n + N.of_nat (S (length rs))) with (n + 1 + N.of_nat (length rs)) in * by lia. constructor; [exact A|]. now apply IH. }
  split.
  - intros j Hj. rewrite Gs, Tj, Ui, D11, Ti by (unfold i; lia). reflexivity.
  - intros k x0 Hk. unfold over. fold d. rewrite Gs. destruct (Nat.lt_ge_cases k (length ws)) as [Lk' | Lk'].
    + rewrite nth_error_app1 in Hk by exact Lk'. rewrite Tj by (unfold i; lia). exact (Ux k x0 Hk).
    + rewrite nth_error_app2 in Hk by exact Lk'. destruct (k - length ws)%nat as [|k'] eqn:Ek; [|destruct k'; discriminate]. injection Hk as <-. cbn [fst snd]. replace (n + N.of_nat k) with i by (unfold i; lia). rewrite G4. destruct d; [reflexivity|]. eauto.
Qed.

(** * Histories *)
Definition short_round_run (e : env) (before : list round) (c : cut_round) : Prop :=
  exists s es1 es2 es3, history e (conversation before ++ cut_round_ops c ++ [OpClose]) = (ROk (all_calls before ++ more (cut_round_ops c) ++ [None]), s) /\
    events s = es1 ++ es2 ++ es3 /\
    conversation_events (e_cfg e) 0 before es1 /\ stream_events (e_cfg e) (N.of_nat (length (exchanges before))) (map fst (ct_exchanges c)) es2 /\
    reply_events (N.of_nat (length (exchanges before))) (map snd (ct_whole c) ++ [ct_short c]) es3 /\
    (forall k m r, nth_error (exchanges before ++ ct_whole c ++ [(ct_message c, ct_short c)]) k = Some (m, r) ->
      if c_auto_destroy (e_cfg e) then tx_get (N.of_nat k) (s_txs s) = None
      else exists t, tx_get (N.of_nat k) (s_txs s) = Some t /\ asked m t /\ answered r t).
Lemma short_round_parsed_yes e before c : yes e -> Forall good_round before -> good_short_round c -> cut_round_fits e before c -> short_round_run e before c.
Proof.
  intros Y G Gc ((F1 & F2 & F3) & B1 & B2 & B3). destruct (open_level e) as (s0 & H0 & L0).
  destruct (talk_runs_size e before Y 0 [] _ 0%nat s0 L0 G F1 F2 F3) as (s1 & T1 & z & es1 & H1 & Ce & L & _ & X & Z). rewrite N.add_0_l in L.
  assert (X' : forall k x, nth_error (exchanges before) k = Some x -> over (c_auto_destroy (e_cfg e)) T1 (N.of_nat k) x) by (intros k x Hk; specialize (X k x Hk); now rewrite N.add_0_l in X).
  destruct (short_round_runs e _ _ _ _ _ c Y L (over_complete _ _ _ X') Gc B1 B2) as (s2 & s3 & es2 & es3 & H2 & H3 & Ev & Se & Re & Ot & Ow); [rewrite Z; destruct (c_auto_destroy _); lia|].
  set (n := N.of_nat (length (exchanges before))) in *.
  exists s3, es1, es2, es3. split; [|split; [|split; [exact Ce|split; [exact Se|split; [exact Re|]]]]].
  - assert (Hc : run_ops [OpClose] e s2 = (ROk [None], s3)) by (cbn [run_ops]; unfold bind; rewrite H3; reflexivity).
    unfold history, conversation, all_calls. cbn [run_ops app map]. unfold bind at 1. rewrite H0. unfold bind at 1. erewrite run_ops_app; [|exact H1|eapply run_ops_app; [exact H2|exact Hc]]. reflexivity.
  - rewrite Ev, <- tr_of_app. unfold tr_of. rewrite app_nil_r, rev_involutive, map_map. apply map_id.
  - intros k m r Hk. destruct (Nat.lt_ge_cases k (length (exchanges before))) as [Lk | Lk].
    + rewrite nth_error_app1 in Hk by exact Lk. rewrite Ot by (unfold n; lia). exact (X' k (m, r) Hk).
    + rewrite nth_error_app2 in Hk by exact Lk. specialize (Ow _ _ Hk). unfold over in Ow. cbn [fst snd] in Ow. replace (n + N.of_nat (k - length (exchanges before))) with (N.of_nat k) in Ow by (unfold n; lia). exact Ow.
Qed.
Lemma short_round_parsed e before c : accepting e -> Forall good_round before -> good_short_round c -> cut_round_fits e before c -> short_round_run e before c.
Proof.
  intros A G Gc F. destruct (short_round_parsed_yes (mute e) before c (yes_mute e) G Gc F) as (s & es1 & es2 & es3 & H & Ee & Ce & Se & Re & D).
  match type of H with history _ ?l = _ => destruct (history_mute e l A) as [H1 H2] end. rewrite H in H1, H2. cbn [fst snd] in H1, H2. apply similar_txs in H2 as [H2 H3].
  match type of H with history _ ?l = _ => exists (snd (history e l)) end. exists es1, es2, es3. split; [rewrite <- H1; apply surjective_pairing|]. rewrite H3. split; [exact Ee|]. split; [now apply conversation_events_mute|]. split; [now apply stream_events_mute|]. split; [exact Re|].
  intros k m r Hk. rewrite H2. exact (D k m r Hk).
Qed.
