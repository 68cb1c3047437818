(** Tunnels: the handshake, and what follows it. *)
From Verif Require Import Base Spec SpecTx SpecMsg SpecResp SpecConnect ModelUtil ModelBstr ModelParsers ModelHeaders ModelUri ModelState ModelTx ModelConn SpecConn ProofsBase ProofsBytes ProofsParsers ProofsHeaders ProofsTx ProofsConn ProofsCore ProofsLoop ProofsHist ProofsEval ProofsBody ProofsHead ProofsFrame ProofsStream ProofsChunk ProofsMsg ProofsRStream ProofsRHead ProofsRBody ProofsRMsg ProofsEnd ProofsClose.
From Verif Require Import ProofsConnect ProofsConnect2.

(** * The handshake *)
(** The tunnel of transaction [n] was granted: [T] is the table, which held [z] before. *)
Record granted (n : N) (tr : list (event * status)) (T : N -> option tx) (z : nat) (t : tx) (s : st) : Prop := {
  gd_wait : waiting n t tr (mk_ctx T (n + 1, s_resp s, false) (S z)) s;
  gd_resp : d_state (s_resp s) = StIdle /\ (d_prev (s_resp s) = StIdle \/ d_prev (s_resp s) = StNone) /\ rlive (d_status (s_resp s)) /\
            d_recv (s_resp s) = None /\ d_buf (s_resp s) = [] /\ d_header (s_resp s) = None;
  gd_next : (T (n + 1) = Some tx_new /\ (length (s_txs s) <= S (S z))%nat) \/ (T (n + 1) = None /\ (length (s_txs s) <= S z)%nat);
  gd_free : forall j, n + 1 < j -> T j = None; gd_keys : NoDup (map fst (s_txs s)) }.
(** What its transaction holds. *)
Record tunnelled (h : handshake) (p : progress) (t : tx) : Prop := {
  tn_asked : tunnel_asked (hk_request h) p t; tn_answered : answered (hk_reply h) t;
  tn_cep : t_cep (x_req t) = CeNone; tn_coding : t_coding (x_req t) = CdNoBody; tn_is09 : x_is09 t = false }.
Lemma grant_over h t0 t : cready (hk_request h) t0 -> grant (hk_reply h) -> gready t0 (hk_reply h) (rp_lines (hk_reply h)) t -> tunnelled h PHeaders (rcompleted_tx t).
Proof.
  intros [[A1 A2 A3 A4 A5 A6 A7 A8 A9] C1 C2 C3 C4] G [(S1 & S2 & S3 & S4 & S5 & S6) R2 R3 R4 R5 R6 R7 R8 R9 R10 R11].
  assert (Q : same_request t (rcompleted_tx t)) by (unfold rcompleted_tx; destruct (coding_eqb _ _); repeat split; reflexivity). destruct Q as (Q1 & Q2 & Q3 & Q4 & Q5 & Q6).
  assert (W : x_raw (rcompleted_tx t) = x_raw t0) by (rewrite S6 in Q6; unfold x_where in Q6; congruence).
  assert (Ec : rp_content (hk_reply h) = Plain []) by apply G.
  assert (V : x_status (rcompleted_tx t) = x_status t /\ x_statusn (rcompleted_tx t) = x_statusn t /\ x_msg (rcompleted_tx t) = x_msg t /\ t_proton (x_resp (rcompleted_tx t)) = t_proton (x_resp t) /\
     t_headers (x_resp (rcompleted_tx t)) = t_headers (x_resp t) /\ t_elen (x_resp (rcompleted_tx t)) = 0 /\ t_mlen (x_resp (rcompleted_tx t)) = 0 /\ t_prog (x_resp (rcompleted_tx t)) = PComplete).
  { unfold rcompleted_tx. destruct (coding_eqb _ _); cbn; rewrite ?R8, ?R9; repeat split; reflexivity. }
  destruct V as (V1 & V2 & V3 & V4 & V5 & V6 & V7 & V8).
  constructor; [constructor|constructor|..]; rewrite ?Q1, ?Q2, ?Q3, ?Q4, ?Q5, ?W, ?S1, ?S2, ?S3, ?S4, ?S5, ?V1, ?V2, ?V3, ?V4, ?V5, ?V6, ?V7, ?V8; try assumption; try reflexivity.
  - rewrite Ec. cbn [trailer_of]. rewrite app_nil_r. apply R6.
  - unfold rp_body. rewrite Ec. reflexivity.
  - rewrite Ec. reflexivity.
Qed.
Lemma handshake_runs e n tr T z s h : yes e -> level n tr T z s -> good_handshake h ->
  blen (request_text (hk_request h)) <= c_field_limit (e_cfg e) -> blen (head_text (hk_reply h)) <= c_field_limit (e_cfg e) -> n + 1 < 2 ^ 64 -> N.of_nat z < c_max_tx (e_cfg e) ->
  exists s' T' t es, run_ops (handshake_ops h) e s = (ROk (more (handshake_ops h)), s') /\ handshake_events n h es /\ granted n (tr_of es tr) T' z t s' /\
    tunnelled h PHeaders t /\ (forall j, j < n -> T' j = T j).
Proof.
  intros Y [Lq (P1 & P2 & P3 & P4 & P5 & P6) Lf Lk] (Gr & Gg & Eu & Nu & Cu & Ed & Nd & Cd) Lim1 Lim2 Ix Sz.
  assert (Aw : d_status (s_resp s) <> SsDataOther) by (destruct P3 as [-> | ->]; discriminate).
  destruct (asks e (hk_request h) n (mk_ctx T (n, s_resp s, false) z) tr Y Gr Lim1 Sz Aw (hk_up h) s Eu Nu Cu Lq) as (s1 & t0 & es1 & H1 & Rd & (hs & Eh & Es1) & W).
  destruct W as [D1 D2 D3 D4 D5 D6 D7 D8 D9 D10 D11]. cbn [cx_rest cx_size cx_table] in *. unfold outside in D9. injection D9 as O1 O2 O3.
  pose proof (keys_run (reqs (hk_up h)) e s Lk) as K1. rewrite H1 in K1. cbn [snd] in K1.
  set (C2 := mk_ctx (fun j => tx_get j (s_txs s1)) (n, s_req s1, false) (length (s_txs s1))).
  assert (Qr : rresting [] n (tr_of es1 tr) C2 s1) by (constructor; rewrite ?O2; try assumption; [left; split; [reflexivity|split; [exact K1|apply Nat.le_refl]]|unfold r_outside, C2; cbn [cx_rest]; congruence|reflexivity]).
  destruct (grants e (hk_reply h) n C2 (tr_of es1 tr) t0 Y Gg Lim2 D7 eq_refl Ix (ta_method _ _ _ (cr_asked _ _ Rd)) (ta_number _ _ _ (cr_asked _ _ Rd)) (ta_progress _ _ _ (cr_asked _ _ Rd)) (cr_is09 _ _ Rd) (reply_resp _ _ (cr_resp _ _ Rd))
    (hk_down h) s1 Ed Nd Cd Qr) as (s2 & t & es2 & H2 & Gd & (ds & Eds & Es2) & Q2).
  pose proof (keys_run (resps (hk_down h)) e s1 K1) as K2. rewrite H2 in K2. cbn [snd] in K2.
  destruct Q2 as [F1 F2 F3 F4 F5 F6 F7 F8 F9 F10 F11]. unfold r_outside, C2 in F10. cbn [cx_rest rnext_ctx] in F10. injection F10 as V1 V2 V3.
  cbn [cx_table cx_size rnext_ctx C2] in F8, F11. destruct (n + 1 =? n) eqn:E1; [lia|]. rewrite D10 in F8 by lia. rewrite Lf in F8 by lia.
  pose proof (grant_over h t0 t Rd Gg Gd) as Tn. clear Gd Qr.
  exists s2, (fun j => tx_get j (s_txs s2)), (rcompleted_tx t), (es1 ++ es2). split; [|split; [|split; [|split]]].
  - unfold handshake_ops. rewrite (run_ops_app _ _ _ _ _ _ _ _ H1 H2). unfold more. now rewrite map_app.
  - exists hs, ds. split; [exact Eh|]. split; [exact Eds|]. rewrite Es1, Es2. unfold cline_events, rline_events. cbn [app]. rewrite <- !app_assoc. reflexivity.
  - constructor; [|repeat split; assumption| | |exact K2].
    + constructor; rewrite ?V2; try assumption; try reflexivity; try congruence.
      * rewrite F11 by lia. rewrite N.eqb_refl. reflexivity.
      * rewrite tr_of_app. exact F9.
      * unfold outside. cbn [cx_rest]. congruence.
      * cbn [cx_size]. destruct F8 as [(_ & _ & F8) | (_ & _ & _ & F8)]; lia.
    + cbn beta. destruct F8 as [(F8 & _ & F8') | (_ & F8 & _ & F8')]; [right|left]; (split; [exact F8|lia]).
    + intros j Hj. rewrite F11 by lia. destruct (j =? n) eqn:E; [lia|]. rewrite D10 by lia. apply Lf. lia.
  - exact Tn.
  - intros j Hj. rewrite F11 by lia. destruct (j =? n) eqn:E; [lia|]. apply D10. lia.
Qed.

(** * What the client sends next *)
Lemma line_method_word text w : first_word text w -> line_method text = w.
Proof.
  intros (b & r & -> & Hb & Hw & Hr & Hn). unfold line_method.
  rewrite (span_app is_space b (w ++ r)).
  - cbn [snd]. rewrite (span_app _ w r); [reflexivity| |].
    + revert Hw. apply Forall_impl. intros c H. destruct (is_space c) eqn:E; [|reflexivity]. apply ProofsParsers.is_space_spec in E. contradiction.
    + intros x b' ->. rewrite (proj2 (ProofsParsers.is_space_spec x)); [reflexivity|]. exact (Hr _ _ eq_refl).
  - revert Hb. apply Forall_impl. intros c. apply ProofsParsers.is_space_spec.
  - intros x b' E. destruct w as [|c w].
    + rewrite (Hn eq_refl) in E. discriminate E.
    + injection E as -> _. inversion_clear Hw as [|? ? H _]. destruct (is_space x) eqn:E; [|reflexivity]. apply ProofsParsers.is_space_spec in E. contradiction.
Qed.
Lemma word_known w : is_unknown (method_new w) = false <-> In w known_methods.
Proof.
  split; [|intro I; rewrite (method_new_known _ I); reflexivity]. unfold method_new. destruct (existsb _ _) eqn:E; [|discriminate]. intros _.
  apply existsb_exists in E as (x & I & E). apply bytes_eqb_eq in E. now subst.
Qed.
Section Probe.
Variables (e : env) (n : N) (tr : list (event * status)) (C : ctx) (t : tx) (code : N).
Hypothesis Y : yes e.
Hypothesis Aw : d_status (snd (fst (cx_rest C))) <> SsDataOther.
Hypothesis Pc : t_prog (x_resp t) = PComplete.
Hypothesis Sn : x_statusn t = RnValid code.
Hypothesis Rg : 200 <= code <= 299.
(** The text [p] came since. *)
Definition probing (p : bytes) (s : st) : Prop := (p = [] /\ waiting n t tr C s) \/ mile StConnectProbe None p None n t tr C s.
Lemma ph_probe s a rest k cb : waiting n t tr C s -> rest_of a rest k cb s ->
  exists s', step SReq e s = (ROk None, s') /\ rest_of a rest k cb s' /\ mile StConnectProbe None [] None n t tr C s'.
Proof using Pc Sn Rg.
  intros [D1 D2 D3 D4 D5 D6 D7 D8 D9 D10 D11] R. rewrite <- D6 in D7.
  assert (H : handle_state SReq e s = (ROk tt, set_s_req (set_d_state StConnectProbe (s_req s)) s)).
  { unfold handle_state, by_side, handle_request_state. unfold bind at 1, get_d at 1. cbn [s_dir]. rewrite D1. unfold request_connect_wait_response. unfold bind at 1.
    rewrite (need_tx_get SReq _ _ _ D7). rewrite Pc, Sn. change (prog_rank PComplete <=? prog_rank PLine) with false. unfold in_range.
    replace ((200 <=? code) && (code <=? 299)) with true by (symmetry; lia). reflexivity. }
  apply (step_next SReq) in H; [|exact (rest_no_gap _ _ _ _ _ R)|exact (live_not_tunnel _ D2)|discriminate].
  eexists. split; [exact H|]. split; [exact R|]. rewrite D6 in *. constructor; cbn; try assumption; try reflexivity.
Qed.
Lemma ph_probe_part s a p q k cb : mile StConnectProbe None p None n t tr C s -> rest_of a q k cb s -> ~ In 10 q -> ~ In 0 q -> blen p + blen q <= c_field_limit (e_cfg e) ->
  exists s', runs e s s' /\ mile StConnectProbe None (p ++ q) None n t tr C s' /\ s_txs s' = s_txs s.
Proof using.
  intros M R Nl Nz L. assert (M' := M). destruct M as [M1 M2 M3 M4 M5 M6 M7 M8 M9 M10 M11 M12].
  assert (H : handle_state SReq e s = absent_lf SReq e s).
  { unfold handle_state, by_side, handle_request_state. unfold bind at 1, get_d at 1. cbn [s_dir]. rewrite M1. unfold request_connect_probe_data. unfold bind at 1, slice at 1.
    rewrite (rest_slice _ _ _ _ _ R). destruct (take_till_lf_null_spec q) as (_ & T & _). rewrite (proj2 T (conj Nl Nz)). reflexivity. }
  rewrite (absent_lf_eval e s a q k cb R M6) in H by (rewrite M5; exact L).
  apply (step_err SReq) in H; [|exact (rest_no_gap _ _ _ _ _ R)]. match type of H with _ = after_step _ _ _ ?q => set (s1 := q) in * end.
  destruct (after_step_data SReq SDataBuffer e s1) as (pr & lg & H3 & H4 & _); [right; reflexivity|exact M4|]. rewrite H3 in H. clear H3. cbn [s_idx] in H4. change (s_ridx s1) with (s_ridx s) in H4; change (s_txs s1) with (s_txs s) in H4. rewrite M7 in H4.
  destruct H4 as [-> | (H4 & _)]; [|congruence].
  eexists. split; [apply runs_last; exact H|]. split; [|reflexivity]. unfold s1. rewrite M5. constructor; cbn; try assumption; try reflexivity; now left.
Qed.
(** The segment with the first end of line or zero byte decides. *)
Lemma probing_bufsum p s : probing p s -> blen p <= c_field_limit (e_cfg e) -> bufsum (s_req s) <= c_field_limit (e_cfg e) /\ live_status (d_status (s_req s)).
Proof using Rg.
  intros [[-> W] | M] L.
  - split; [|exact (wt_live _ _ _ _ _ W)]. unfold bufsum. rewrite (wt_buf _ _ _ _ _ W), (wt_header _ _ _ _ _ W). cbn. lia.
  - split; [|exact (ml_live _ _ _ _ _ _ _ _ _ M)]. unfold bufsum. rewrite (ml_buf _ _ _ _ _ _ _ _ _ M), (ml_header _ _ _ _ _ _ _ _ _ M). cbn. lia.
Qed.
Lemma probing_opened p c s : probing p s -> exists s1, (opened SReq c s = s1 \/ step SReq e (opened SReq c s) = (ROk None, s1)) /\ rest_of c c 0 0 s1 /\ mile StConnectProbe None p None n t tr C s1 /\ s_txs s1 = s_txs s.
Proof using Aw Pc Sn Rg.
  intros [[-> W] | M].
  - pose proof (copened_waiting n C Aw c t tr s W) as W'. destruct W' as [D1 D2 D3 D4 D5 D6 D7 D8 D9 D10 D11]. rewrite <- D6 in D7.
    assert (H : handle_state SReq e (opened SReq c s) = (ROk tt, set_s_req (set_d_state StConnectProbe (s_req (opened SReq c s))) (opened SReq c s))).
    { unfold handle_state, by_side, handle_request_state. unfold bind at 1, get_d at 1. cbn [s_dir]. rewrite D1. unfold request_connect_wait_response. unfold bind at 1.
      rewrite (need_tx_get SReq _ _ _ D7). rewrite Pc, Sn. change (prog_rank PComplete <=? prog_rank PLine) with false. unfold in_range.
      replace ((200 <=? code) && (code <=? 299)) with true by (symmetry; lia). reflexivity. }
    apply (step_next SReq) in H; [|exact (rest_no_gap _ _ _ _ _ (opened_rest c s))|exact (live_not_tunnel _ D2)|discriminate].
    eexists. split; [right; exact H|]. split; [exact (opened_rest c s)|]. rewrite D6 in *. split; [constructor; cbn; try assumption; try reflexivity|].
    change (s_txs (opened SReq c s) = s_txs s). pose proof (wt_outside _ _ _ _ _ W) as O. pose proof Aw as A. rewrite <- O in A. rewrite opened_awake by exact A. destruct s; reflexivity.
  - exists (opened SReq c s). split; [now left|]. split; [apply opened_rest|]. split; [exact (proj1 (opened_mile _ _ _ _ _ _ _ _ c _ Aw M))|].
    pose proof (ml_outside _ _ _ _ _ _ _ _ _ M) as O. pose proof Aw as A. rewrite <- O in A. rewrite opened_awake by exact A. destruct s; reflexivity.
Qed.
Lemma probing_calls cs : forall p s, ~ In [] cs -> ~ In 10 (concat cs) -> ~ In 0 (concat cs) -> blen (p ++ concat cs) <= c_field_limit (e_cfg e) -> probing p s ->
  exists s', run_ops (reqs cs) e s = (ROk (more (reqs cs)), s') /\ probing (p ++ concat cs) s' /\ s_txs s' = s_txs s.
Proof using Aw Pc Sn Rg.
  induction cs as [|c cs IH]; intros p s Ne Nl Nz L P.
  - exists s. split; [reflexivity|]. cbn [concat]. rewrite app_nil_r. auto.
  - cbn [concat] in *. assert (Nc : c <> []) by (intros ->; apply Ne; now left).
    assert (Lp : blen p + blen c <= c_field_limit (e_cfg e)) by (unfold blen in *; rewrite !app_length in L; lia).
    assert (G : exists s1, data_call SReq (pd_slice c) e s = (ROk SsData, s1) /\ mile StConnectProbe None (p ++ c) None n t tr C s1 /\ s_txs s1 = s_txs s).
    { assert (Nl' : ~ In 10 c) by (intro I; apply Nl; apply in_or_app; now left). assert (Nz' : ~ In 0 c) by (intro I; apply Nz; apply in_or_app; now left).
      destruct (probing_opened p c s P) as (s1 & H1 & R1 & M1 & X1). destruct (probing_bufsum p s P) as [B Lv]; [lia|].
      destruct (ph_probe_part s1 c p c 0 0 M1 R1 Nl' Nz' Lp) as (s2 & H2 & M2 & X2). exists s2. split; [|split; [exact M2|congruence]]. apply runs_data_call; [exact Nc|exact B|exact Lv|].
      destruct H1 as [-> | H1]; [exact H2|eapply runs_next; eassumption]. }
    destruct G as (s1 & R1 & M1 & X1). destruct (IH (p ++ c) s1) as (s2 & R2 & P2 & X2); [intro Z; apply Ne; now right|intro I; apply Nl; apply in_or_app; now right|intro I; apply Nz; apply in_or_app; now right|rewrite <- app_assoc; exact L|right; exact M1|].
    exists s2. rewrite <- app_assoc in P2. split; [|split; [exact P2|congruence]]. unfold reqs in *. cbn [map run_ops]. unfold bind at 1. cbn [run_op]. unfold bind at 1. rewrite R1. unfold ret at 1. unfold bind at 1. rewrite R2. reflexivity.
Qed.
Lemma probe_found s a p c z b k cb : mile StConnectProbe None p None n t tr C s -> rest_of a (c ++ z :: b) k cb s -> z = 10 \/ z = 0 -> ~ In 10 c -> ~ In 0 c -> blen (p ++ c ++ [z]) <= c_field_limit (e_cfg e) ->
  handle_state SReq e s = (if is_unknown (method_new (line_method (p ++ c ++ [z]))) then set_status SReq SsTunnel ;; set_status SResp SsTunnel else state_request_complete) e s.
Proof using Rg.
  intros [M1 M2 M3 M4 M5 M6 M7 M8 M9 M10 M11 M12] R Hz N1 N0 L. unfold handle_state, by_side, handle_request_state. unfold bind at 1, get_d at 1. cbn [s_dir]. rewrite M1. unfold request_connect_probe_data. unfold bind at 1, slice at 1.
  rewrite (rest_slice _ _ _ _ _ R). destruct (take_till_lf_null_spec (c ++ z :: b)) as (T & _). rewrite (proj2 (T b (c ++ [z]))).
  2:{ split; [rewrite <- app_assoc; reflexivity|]. exists c, z. auto. }
  assert (Ck : check_limit_if_buffered SReq (blen (c ++ [z])) e s = (ROk tt, s)).
  { unfold check_limit_if_buffered. unfold bind at 1, get_d at 1. cbn [s_dir]. rewrite M5. destruct (is_nil p); [reflexivity|]. cbn [negb when].
    unfold check_buffer_limit. destruct (_ =? 0); [reflexivity|]. unfold bind at 1, get_d at 1. unfold bind at 1, ask at 1. cbn [s_dir]. rewrite M5, M6.
    match goal with |- (if ?x then _ else _) _ _ = _ => destruct x eqn:E; [exfalso; unfold blen in *; rewrite ?app_length in *; lia|reflexivity] end. }
  unfold bind at 1. rewrite Ck. unfold bind at 1, get_d at 1. cbn [s_dir]. rewrite M5. reflexivity.
Qed.
Lemma loops_data_call w s s' x m : w <> [] -> bufsum (s_req s) <= c_field_limit (e_cfg e) -> live_status (d_status (s_req s)) -> loops SReq e m (opened SReq w s) x s' ->
  data_call SReq (pd_slice w) e s = (ROk x, s').
Proof using Rg.
  intros Nc B L R. assert (Lc : 0 < blen w) by (destruct w; [congruence|unfold blen; cbn; lia]).
  destruct (data_call_ok e SReq (pd_slice w) s) as (x' & s2 & H & _); [split; [reflexivity|cbn; congruence]|exact B|intro Z; exfalso; exact (live_not_closed _ L Z)|].
  rewrite H. rewrite data_call_bytes in H by (assumption). apply loops_fuel in R.
  pose proof (data_loop_more SReq e m (opened SReq w s)) as D1. rewrite R in D1. specialize (D1 ltac:(discriminate) (loop_fuel SReq (opened SReq w s))).
  pose proof (data_loop_more SReq e (loop_fuel SReq (opened SReq w s)) (opened SReq w s)) as D2. rewrite H in D2. specialize (D2 ltac:(discriminate) m). rewrite Nat.add_comm in D2. congruence.
Qed.
(** ** It names no method: the tunnel is in use *)
Definition tunnel_in_use (s : st) : Prop := d_status (s_req s) = SsTunnel /\ d_status (s_resp s) = SsTunnel.
Lemma tunnel_call p s w a z b word : probing p s -> w = a ++ z :: b -> z = 10 \/ z = 0 -> ~ In 10 a -> ~ In 0 a -> blen (p ++ a ++ [z]) <= c_field_limit (e_cfg e) ->
  first_word (p ++ a ++ [z]) word -> ~ In word known_methods ->
  exists s', data_call SReq (pd_slice w) e s = (ROk SsTunnel, s') /\ tunnel_in_use s' /\ s_trace s' = tr /\ s_txs s' = s_txs s.
Proof using Aw Pc Sn Rg.
  intros P -> Hz N1 N0 L Fw Nk. destruct (probing_opened p (a ++ z :: b) s P) as (s1 & H1 & R1 & M1 & X1).
  pose proof (probe_found s1 _ p a z b 0 0 M1 R1 Hz N1 N0 L) as H2. rewrite (line_method_word _ _ Fw) in H2.
  destruct (is_unknown (method_new word)) eqn:U; [|exfalso; apply Nk; now apply word_known].
  assert (H3 : step SReq e s1 = (ROk (Some SsTunnel), set_s_resp (set_d_status SsTunnel (s_resp s1)) (set_s_req (set_d_status SsTunnel (s_req s1)) s1))).
  { unfold step. unfold bind at 1, input at 1. unfold bind at 1, get_d at 1. rewrite (rest_no_gap _ _ _ _ _ R1). cbn [andb]. unfold bind at 1, try at 1. rewrite H2. destruct s1. reflexivity. }
  destruct (probing_bufsum p s P) as [B Lv]; [unfold blen in *; rewrite !app_length in L; lia|].
  exists (set_s_resp (set_d_status SsTunnel (s_resp s1)) (set_s_req (set_d_status SsTunnel (s_req s1)) s1)). split; [|split; [split; reflexivity|split; [|exact X1]]].
  - destruct H1 as [H1 | H1].
    + eapply loops_data_call; [destruct a; discriminate|exact B|exact Lv|]. rewrite H1. apply LoopsLast. exact H3.
    + eapply loops_data_call; [destruct a; discriminate|exact B|exact Lv|]. eapply LoopsMore; [exact H1|]. apply LoopsLast. exact H3.
  - exact (ml_trace _ _ _ _ _ _ _ _ _ M1).
Qed.
Lemma traffic_runs l : forall s, Forall traffic l -> tunnel_in_use s ->
  exists s', run_ops l e s = (ROk (map (fun _ => Some SsTunnel) l), s') /\ s_trace s' = s_trace s /\ s_txs s' = s_txs s.
Proof using Rg.
  induction l as [|o l IH]; intros s F [U1 U2].
  - exists s. auto.
  - inversion_clear F as [|? ? (c & Nc & Ho) F']. assert (Ec : pd_is_empty (pd_slice c) = false).
    { unfold pd_is_empty, pd_slice. rewrite pd_len_at by lia. destruct c; [congruence|]. apply N.eqb_neq. unfold blen. cbn. lia. }
    assert (G : exists s1, run_op o e s = (ROk (Some SsTunnel), s1) /\ tunnel_in_use s1 /\ s_trace s1 = s_trace s /\ s_txs s1 = s_txs s).
    { destruct s as [rq rs oe cc ci ri pi txs cf si so trc lg inp]. destruct rq as [a1 a2 a3 a4 a5 a6 a7 a8 a9 a10], rs as [b1 b2 b3 b4 b5 b6 b7 b8 b9 b10]. cbn in U1, U2. subst a1 b1.
      destruct Ho as [-> | ->]; cbn [run_op]; unfold data_call; ev; rewrite Ec; ev; (eexists; split; [reflexivity|repeat split]). }
    destruct G as (s1 & H1 & U & T1 & X1). destruct (IH s1 F' U) as (s2 & H2 & T2 & X2). exists s2. split; [|split; congruence].
    cbn [map run_ops]. unfold bind at 1. rewrite H1. unfold bind at 1. rewrite H2. reflexivity.
Qed.
End Probe.
