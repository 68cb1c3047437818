(** Tunnels: the client does not wait for the answer. *)
From Verif Require Import Base Spec SpecTx SpecMsg SpecResp SpecEnd SpecConnect ModelUtil ModelBstr ModelParsers ModelHeaders ModelUri ModelState ModelTx ModelConn SpecConn ProofsBase ProofsBytes ProofsParsers ProofsHeaders ProofsTx ProofsConn ProofsCore ProofsLoop ProofsHist ProofsEval ProofsBody ProofsHead ProofsFrame ProofsStream ProofsChunk ProofsMsg ProofsRStream ProofsRHead ProofsRBody ProofsRMsg ProofsTalk ProofsEnd ProofsQuiet ProofsClose.
From Verif Require Import ProofsConnect ProofsConnect2 ProofsConnect3 ProofsConnect4.

(** * A call of the client that has to be repeated *)
(** The request parser waiting for the answer, whatever the response parser does. *)
Record patient (n : N) (s : st) : Prop := {
  pt_state : d_state (s_req s) = StConnectWait; pt_live : live_status (d_status (s_req s)); pt_recv : d_recv (s_req s) = None;
  pt_buf : d_buf (s_req s) = []; pt_header : d_header (s_req s) = None; pt_idx : s_ridx s = n }.
Definition unread (t : tx) : Prop := t_prog (x_resp t) = PNotStarted \/ t_prog (x_resp t) = PLine.
Definition refused (c : bytes) (s : st) : st := set_s_req (set_d_status SsDataOther (s_req (opened SReq c s))) (opened SReq c s).
Lemma refused_call e n c s t : c <> [] -> patient n s -> tx_get n (s_txs s) = Some t -> unread t -> d_status (s_resp s) <> SsDataOther ->
  data_call SReq (pd_slice c) e s = (ROk SsDataOther, refused c s).
Proof.
  intros Nc [P1 P2 P3 P4 P5 P6] Tx U Aw.
  apply (loops_data_call e 200 ltac:(lia) c s _ SsDataOther 1 Nc); [unfold bufsum; rewrite P4, P5; change (blen []) with 0; lia|exact P2|]. apply LoopsLast.
  assert (Sr : sstate_eqb (d_status (s_resp s)) SsDataOther = false) by (destruct (d_status (s_resp s)); try reflexivity; congruence).
  pose proof (opened_rest c s) as R.
  assert (D : d_state (s_req (opened SReq c s)) = StConnectWait /\ s_ridx (opened SReq c s) = n /\ s_txs (opened SReq c s) = s_txs s).
  { unfold opened. rewrite Sr. destruct s as [rq rs oe cc ci ri pi txs cf si so trc lg inp]. cbn in *. auto. }
  destruct D as (D1 & D2 & D3). unfold refused. set (s1 := opened SReq c s) in *. rewrite <- D3, <- D2 in Tx.
  assert (H : handle_state SReq e s1 = (RErr SDataOther, s1)).
  { unfold handle_state, by_side, handle_request_state. unfold bind at 1, get_d at 1. cbn [s_dir]. rewrite D1. unfold request_connect_wait_response. unfold bind at 1.
    rewrite (need_tx_get SReq _ _ _ Tx). destruct U as [-> | ->]; reflexivity. }
  apply (step_err SReq) in H; [|exact (rest_no_gap _ _ _ _ _ R)].
  assert (P : pd_is_empty (s_input s1) = false).
  { unfold pd_is_empty. rewrite (rest_pd_len _ _ _ _ _ R). destruct c; [congruence|]. apply N.eqb_neq. unfold blen. cbn. lia. }
  unfold after_step in H. unfold bind at 1, input at 1 in H. rewrite P in H. cbv zeta in H. rewrite H. reflexivity.
Qed.
Lemma refused_same c s : d_status (s_resp s) <> SsDataOther ->
  s_resp (refused c s) = s_resp s /\ s_pidx (refused c s) = s_pidx s /\ s_ridx (refused c s) = s_ridx s /\ s_txs (refused c s) = s_txs s /\ s_trace (refused c s) = s_trace s /\
  s_other_at_end (refused c s) = s_other_at_end s.
Proof.
  intro Aw. assert (Sr : sstate_eqb (d_status (s_resp s)) SsDataOther = false) by (destruct (d_status (s_resp s)); try reflexivity; congruence).
  unfold refused, opened. rewrite Sr. destruct s as [rq rs oe cc ci ri pi txs cf si so trc lg inp]. cbn. auto 8.
Qed.
Lemma refused_patient n c s : patient n s -> d_status (s_resp s) <> SsDataOther -> patient n (refused c s) /\ d_consumed (s_req (refused c s)) = 0.
Proof.
  intros [P1 P2 P3 P4 P5 P6] Aw. assert (Sr : sstate_eqb (d_status (s_resp s)) SsDataOther = false) by (destruct (d_status (s_resp s)); try reflexivity; congruence).
  unfold refused, opened. rewrite Sr. destruct s as [rq rs oe cc ci ri pi txs cf si so trc lg inp]. cbn in *. split; [|reflexivity]. constructor; cbn; try assumption. right. now right.
Qed.
(** * Until the status line is read *)
Section Early.
Variables (e : env) (r : response) (n : N) (tr : list (event * status)) (t0 : tx).
Hypothesis Y : yes e.
Hypothesis Gr : grant r.
Hypothesis Lim : blen (head_text r) <= c_field_limit (e_cfg e).
Hypothesis Li : n + 1 < 2 ^ 64.
Hypothesis A1 : x_method t0 = Some (s2b "CONNECT").
Hypothesis A2 : x_methodn t0 = MKnown (s2b "CONNECT").
Hypothesis A3 : t_prog (x_req t0) = PHeaders.
Hypothesis A4 : x_is09 t0 = false.
Hypothesis A5 : x_resp t0 = x_resp tx_new.
(** Context [C] is that of state [s]. *)
Definition beside (T : N -> option tx) (z : nat) (s : st) : ctx := mk_ctx T (n, s_req s, false) z.
Lemma gpaused_unread T z P S s : T n = Some t0 -> P ++ S = head_text r -> ~ In 10 P -> patient n s -> gpaused r n (beside T z s) tr t0 S s ->
  d_status (s_resp s) <> SsDataOther /\ (exists t, tx_get n (s_txs s) = Some t /\ unread t) /\ forall c, gpaused r n (beside T z (refused c s)) tr t0 S (refused c s).
Proof using A5 e Lim Li A4.
  intros Tn E Nl Pt Q.
  assert (Lp : (length P < length (status_line_text r))%nat).
  { destruct (Nat.lt_ge_cases (length P) (length (status_line_text r))) as [L | L]; [exact L|]. exfalso. apply Nl. unfold head_text in E. apply app_split in E as [(u & E & _) | (u & -> & _)].
    - rewrite E in L. rewrite app_length in L. assert (u = []) by (destruct u; [reflexivity|cbn in L; lia]). subst u. rewrite app_nil_r in E. rewrite <- E, status_line_body. apply in_or_app. right. right. now left.
    - apply in_or_app. left. rewrite status_line_body. apply in_or_app. right. right. now left. }
  assert (Ls : (length (gafter r) < length S)%nat) by (apply (f_equal (@length N)) in E; unfold head_text, gafter in *; rewrite !app_length in *; lia).
  remember (beside T z s) as C eqn:EC in Q. revert Pt EC. destruct Q as [s Q|p l s El M|ls1 ls2 p q t hs s El Eq Nq Hp Eh Rd M|t es s Rd He Q]; intros Pt EC; subst C.
  - assert (Aw : d_status (s_resp s) <> SsDataOther) by (destruct (rr_live _ _ _ _ _ Q) as [-> | ->]; discriminate). split; [exact Aw|]. split.
    + destruct (rr_tx _ _ _ _ _ Q) as [[X _] | [X _]]; cbn [cx_table beside] in X; [|congruence]. exists t0. rewrite X. split; [exact Tn|]. left. rewrite A5. reflexivity.
    + intro c. destruct (refused_same c s Aw) as (B1 & B2 & B3 & B4 & B5 & B6). constructor. destruct Q as [R1 R2 R3 R4 R5 R6 R7 R8 R9 R10 R11].
      constructor; rewrite ?B1, ?B2, ?B4, ?B5; try assumption. unfold r_outside in *. cbn [beside cx_rest] in *. rewrite B3, B6. injection R10 as R10 R10'. rewrite R10, R10'. reflexivity.
  - assert (Aw : d_status (s_resp s) <> SsDataOther) by (destruct (ProofsRStream.rm_live _ _ _ _ _ _ _ _ _ M) as [-> | ->]; discriminate). split; [exact Aw|]. split.
    + exists (started t0). split; [exact (ProofsRStream.rm_tx _ _ _ _ _ _ _ _ _ M)|]. right. reflexivity.
    + intro c. destruct (refused_same c s Aw) as (B1 & B2 & B3 & B4 & B5 & B6). apply (gp_line _ _ _ _ _ p l); [exact El|]. destruct M as [R1 R2 R3 R4 R5 R6 R7 R8 R9 R10 R11 R12].
      constructor; rewrite ?B1, ?B2, ?B4, ?B5; try assumption. unfold r_outside in *. cbn [beside cx_rest] in *. rewrite B3, B6. injection R10 as R10 R10'. rewrite R10, R10'. reflexivity.
  - exfalso. apply (f_equal (@length N)) in Eq. unfold gafter, block_text in *. rewrite El, map_app, concat_app, !app_length in *. lia.
  - exfalso. cbn in Ls. lia.
Qed.
Lemma gpaused_outside C S s : gpaused r n C tr t0 S s -> r_outside s = cx_rest C.
Proof using. intro Q. destruct Q as [s Q|p l s El M|ls1 ls2 p q t hs s El Eq Nq Hp Eh Rd M|t es s Rd He Q]; [apply Q|apply M|apply M|apply Q]. Qed.
Lemma early_runs T z d2 l : forall P s, T n = Some t0 -> patient n s -> gpaused r n (beside T z s) tr t0 (concat (from_server l ++ d2)) s -> Forall (fun x => snd x <> []) l ->
  (forall a b, from_server l ++ d2 = a ++ b -> gclean r (concat b)) -> P ++ concat (from_server l ++ d2) = head_text r -> ~ In 10 (P ++ concat (from_server l)) ->
  exists s', run_ops (map spoken l) e s = (ROk (map call_gives l), s') /\ patient n s' /\ gpaused r n (beside T z s') tr t0 (concat d2) s'.
Proof using Y Gr Lim Li A1 A2 A3 A4 A5.
  induction l as [|[sd c] l IH]; intros P s Tn Pt Q Ne Cl E Nl; [exists s; split; [reflexivity|split; assumption]|].
  apply Forall_inv in Ne as Nc. apply Forall_inv_tail in Ne. cbn [snd] in Nc. destruct sd.
  - change (from_server ((SReq, c) :: l)) with (from_server l) in *.
    destruct (gpaused_unread T z P _ s Tn E) as (Aw & (t & Tx & U) & Q'); [intro I; apply Nl; apply in_or_app; now left|assumption|assumption|].
    pose proof (refused_call e n c s t Nc Pt Tx U Aw) as H. destruct (refused_patient n c s Pt Aw) as [Pt' _].
    destruct (IH P (refused c s) Tn Pt' (Q' c) Ne Cl E Nl) as (s' & H' & Z). exists s'. split; [|exact Z].
    cbn [map run_ops spoken fst snd]. unfold bind at 1. cbn [run_op]. unfold bind at 1. rewrite H. unfold ret at 1. unfold bind at 1. rewrite H'. reflexivity.
  - change (from_server ((SResp, c) :: l)) with (c :: from_server l) in *. cbn [app concat] in Q, E, Nl.
    destruct (gbufsum e r n (beside T z s) tr t0 Lim eq_refl Li A4 _ _ Q) as [B L].
    destruct (ggoes e r n (beside T z s) tr t0 Y Gr Lim Tn eq_refl Li A1 A2 A3 A4 A5 c _ s (Cl [c] _ eq_refl) Nc Q) as (s1 & R1 & P1).
    apply (rruns_data_call e c s s1 Nc B L) in R1. pose proof (gpaused_outside _ _ _ P1) as O. cbn [beside cx_rest] in O. unfold r_outside in O. injection O as O1 O2 O3.
    assert (Pt1 : patient n s1) by (destruct Pt; constructor; rewrite ?O2; assumption).
    assert (Eb : beside T z s1 = beside T z s) by (unfold beside; now rewrite O2). rewrite <- Eb in P1.
    destruct (IH (P ++ c) s1 Tn Pt1 P1 Ne) as (s' & H' & Z).
    + intros a b Hab. apply (Cl (c :: a) b). rewrite <- app_comm_cons, Hab. reflexivity.
    + now rewrite <- app_assoc.
    + now rewrite <- app_assoc.
    + exists s'. split; [|exact Z]. cbn [map run_ops spoken fst snd]. unfold bind at 1. cbn [run_op]. unfold bind at 1. rewrite R1. unfold ret at 1. unfold bind at 1. rewrite H'. reflexivity.
Qed.
End Early.

(** * The handshake *)
Definition early_ops (h : handshake) (l : list (side * bytes)) (d2 : list bytes) : list op := reqs (hk_up h) ++ map spoken l ++ resps d2.
Definition early_calls (h : handshake) (l : list (side * bytes)) (d2 : list bytes) : list (option sstate) := more (reqs (hk_up h)) ++ map call_gives l ++ more (resps d2).
(** The state in which the answer is awaited. *)
Lemma asked_runs e n tr T z s h : yes e -> level n tr T z s -> good_handshake h ->
  blen (request_text (hk_request h)) <= c_field_limit (e_cfg e) -> N.of_nat z < c_max_tx (e_cfg e) ->
  exists s1 t0 es1 hs, run_ops (reqs (hk_up h)) e s = (ROk (more (reqs (hk_up h))), s1) /\ cready (hk_request h) t0 /\
    concat hs = block_text (rq_lines (hk_request h)) ++ [13; 10] /\ es1 = cline_events n ++ map (ev_header n) hs ++ [mk_ev HRequestHeaders n PlNone] /\
    patient n s1 /\ tx_get n (s_txs s1) = Some t0 /\ (length (s_txs s1) <= S z)%nat /\ NoDup (map fst (s_txs s1)) /\ (forall j, j <> n -> tx_get j (s_txs s1) = T j) /\ (forall j, n < j -> T j = None) /\
    rresting [] n (tr_of es1 tr) (beside n (fun j => tx_get j (s_txs s1)) (length (s_txs s1)) s1) s1.
Proof.
  intros Y [Lq (P1 & P2 & P3 & P4 & P5 & P6) Lf Lk] (Gr & Gg & Eu & Nu & Cu & Ed & Nd & Cd) Lim1 Sz.
  assert (Aw : d_status (s_resp s) <> SsDataOther) by (destruct P3 as [-> | ->]; discriminate).
  destruct (asks e (hk_request h) n (mk_ctx T (n, s_resp s, false) z) tr Y Gr Lim1 Sz Aw (hk_up h) s Eu Nu Cu Lq) as (s1 & t0 & es1 & H1 & Rd & (hs & Eh & Es1) & W).
  destruct W as [D1 D2 D3 D4 D5 D6 D7 D8 D9 D10 D11]. cbn [cx_rest cx_size cx_table] in *. unfold outside in D9. injection D9 as O1 O2 O3.
  pose proof (keys_run (reqs (hk_up h)) e s Lk) as K1. rewrite H1 in K1. cbn [snd] in K1.
  exists s1, t0, es1, hs. split; [exact H1|]. split; [exact Rd|]. split; [exact Eh|]. split; [exact Es1|]. split; [constructor; assumption|]. split; [exact D7|]. split; [exact D11|]. split; [exact K1|].
  split; [exact D10|]. split; [intros j Hj; apply Lf; lia|].
  constructor; rewrite ?O2; try assumption; [left; split; [reflexivity|split; [exact K1|apply Nat.le_refl]]|unfold r_outside, beside; cbn [cx_rest]; congruence|reflexivity].
Qed.
Lemma early_handshake e n tr T z s h l d2 : yes e -> level n tr T z s -> good_handshake h ->
  blen (request_text (hk_request h)) <= c_field_limit (e_cfg e) -> blen (head_text (hk_reply h)) <= c_field_limit (e_cfg e) -> n + 1 < 2 ^ 64 -> N.of_nat z < c_max_tx (e_cfg e) ->
  Forall (fun x => snd x <> []) l -> hk_down h = from_server l ++ d2 -> ~ In 10 (concat (from_server l)) ->
  exists s' T' t es, run_ops (early_ops h l d2) e s = (ROk (early_calls h l d2), s') /\ handshake_events n h es /\ granted n (tr_of es tr) T' z t s' /\
    tunnelled h PHeaders t /\ (forall j, j < n -> T' j = T j).
Proof.
  intros Y Lv Gh Lim1 Lim2 Ix Sz Ne El Nl. destruct (asked_runs e n tr T z s h Y Lv Gh Lim1 Sz) as (s1 & t0 & es1 & hs & H1 & Rd & Eh & Es1 & Pt & D7 & D11 & K1 & D10 & Lf & Qr).
  destruct Gh as (Gr & Gg & Eu & Nu & Cu & Ed & Nd & Cd). set (T1 := fun j => tx_get j (s_txs s1)) in *. set (z1 := length (s_txs s1)) in *.
  pose proof (ta_method _ _ _ (cr_asked _ _ Rd)) as A1. pose proof (ta_number _ _ _ (cr_asked _ _ Rd)) as A2. pose proof (ta_progress _ _ _ (cr_asked _ _ Rd)) as A3.
  pose proof (cr_is09 _ _ Rd) as A4. pose proof (reply_resp _ _ (cr_resp _ _ Rd)) as A5.
  destruct (early_runs e (hk_reply h) n (tr_of es1 tr) t0 Y Gg Lim2 Ix A1 A2 A3 A4 A5 T1 z1 d2 l [] s1 D7 Pt) as (s2 & H2 & Pt2 & Q2); try assumption.
  { rewrite <- El, Ed. constructor. exact Qr. } { rewrite <- El. exact Cd. } { rewrite <- El. exact Ed. }
  destruct (gcalls e (hk_reply h) n (beside n T1 z1 s2) (tr_of es1 tr) t0 Y Gg Lim2 D7 eq_refl Ix A1 A2 A3 A4 A5 d2 s2) as (s3 & H3 & Q3); [|..|exact Q2|].
  { intro I. apply Nd. rewrite El. apply in_or_app. now right. } { intros a b Hab. apply (Cd (from_server l ++ a) b). rewrite El, Hab. now rewrite app_assoc. }
  assert (Q : exists t es2, gready t0 (hk_reply h) (rp_lines (hk_reply h)) t /\ ghead_events (hk_reply h) n es2 /\ rresting [] (n + 1) (tr_of es2 (tr_of es1 tr)) (rnext_ctx false n (rcompleted_tx t) (beside n T1 z1 s2)) s3).
  { remember (@nil N) as X eqn:EX in Q3. clear H3. destruct Q3 as [s3 Q0|p w s3 Ew M|ls1 ls2 p q t ds s3 Ew Eq Nq Hp Ep Rp M|t es s3 Rp He Q1].
    - exfalso. unfold head_text in EX. rewrite status_line_body in EX. apply app_eq_nil in EX as [EX _]. apply app_eq_nil in EX as [_ EX]. discriminate EX.
    - exfalso. apply app_eq_nil in EX as [EX _]. apply app_eq_nil in EX as [_ EX]. discriminate EX.
    - congruence.
    - exists t, es. auto. }
  destruct Q as (t & es2 & Gd & (ds & Eds & Es2) & Q).
  pose proof (keys_run (map spoken l) e s1 K1) as K2. rewrite H2 in K2. cbn [snd] in K2. pose proof (keys_run (resps d2) e s2 K2) as K3. rewrite H3 in K3. cbn [snd] in K3.
  destruct Q as [F1 F2 F3 F4 F5 F6 F7 F8 F9 F10 F11]. unfold r_outside, beside in F10. cbn [cx_rest rnext_ctx] in F10. injection F10 as V1 V2 V3. destruct Pt2 as [W1 W2 W3 W4 W5 W6].
  cbn [cx_table cx_size rnext_ctx beside] in F8, F11. destruct (n + 1 =? n) eqn:E1; [lia|]. unfold T1 in F8. rewrite D10 in F8 by lia. rewrite Lf in F8 by lia.
  pose proof (grant_over h t0 t Rd Gg Gd) as Tn. clear Gd Qr.
  exists s3, (fun j => tx_get j (s_txs s3)), (rcompleted_tx t), (es1 ++ es2). split; [|split; [|split; [|split]]].
  - unfold early_ops, early_calls. exact (run_ops_app _ _ _ _ _ _ _ _ H1 (run_ops_app _ _ _ _ _ _ _ _ H2 H3)).
  - exists hs, ds. split; [exact Eh|]. split; [exact Eds|]. rewrite Es1, Es2. unfold cline_events, rline_events. cbn [app]. rewrite <- !app_assoc. reflexivity.
  - constructor; [|repeat split; assumption| | |exact K3].
    + constructor; rewrite ?V2; try assumption; try reflexivity; try congruence.
      * rewrite F11 by lia. rewrite N.eqb_refl. reflexivity.
      * rewrite tr_of_app. exact F9.
      * unfold outside. cbn [cx_rest]. congruence.
      * cbn [cx_size]. destruct F8 as [(_ & _ & F8) | (_ & _ & _ & F8)]; lia.
    + cbn beta. destruct F8 as [(F8 & _ & F8') | (_ & F8 & _ & F8')]; [right|left]; (split; [exact F8|lia]).
    + intros j Hj. rewrite F11 by lia. destruct (j =? n) eqn:E; [lia|]. unfold T1. rewrite D10 by lia. apply Lf. lia.
  - exact Tn.
  - intros j Hj. rewrite F11 by lia. destruct (j =? n) eqn:E; [lia|]. apply D10. lia.
Qed.
Lemma early_granted e before h l d2 : yes e -> Forall good_round before -> good_handshake h -> tunnel_fits e before h [] ->
  Forall (fun x => snd x <> []) l -> hk_down h = from_server l ++ d2 -> ~ In 10 (concat (from_server l)) -> granted_after e before h (early_ops h l d2) (early_calls h l d2).
Proof.
  intros Y G Gh ((F1 & F2 & F3) & _ & B1 & B2 & B3 & B4) Ne El Nl. destruct (open_level e) as (s0 & H0 & L0).
  destruct (talk_runs_size e before Y 0 [] _ 0%nat s0 L0 G F1 F2 F3) as (s1 & T1 & z & es1 & H1 & Ce & L & _ & X & Z). rewrite N.add_0_l in L.
  destruct (early_handshake e _ _ _ _ _ h l d2 Y L Gh B1 B2) as (s2 & T2 & t & es2 & H2 & He & Gd & Tn & O2); [lia|rewrite Z; destruct (c_auto_destroy _); cbn [exchanges length] in *; lia|assumption..|].
  exists s2, T2, z, t, es1, es2. split; [|split; [exact Ce|split; [exact He|split; [now rewrite tr_of_app|split; [exact Tn|split; [|exact Z]]]]]].
  - unfold history, conversation, all_calls. cbn [run_ops app map]. unfold bind at 1. rewrite H0. unfold bind at 1. rewrite (run_ops_app _ _ _ _ _ _ _ _ H1 H2). reflexivity.
  - intros k x Hk. specialize (X k x Hk). rewrite N.add_0_l in X. unfold over in *. rewrite O2; [exact X|]. assert (k < length (exchanges before))%nat by (apply nth_error_Some; congruence). lia.
Qed.
Lemma early_tunnel_run e before h l d2 quiet w later line word : accepting e -> Forall good_round before -> good_handshake h -> tunnel_fits e before h [] ->
  Forall (fun x => snd x <> []) l -> hk_down h = from_server l ++ d2 -> ~ In 10 (concat (from_server l)) ->
  ~ In [] quiet -> first_text quiet w line -> blen line <= c_field_limit (e_cfg e) ->
  first_word line word -> ~ In word known_methods -> Forall traffic later -> tunnelled_after e before h (early_ops h l d2) (early_calls h l d2) quiet w later.
Proof.
  intros A G Gh F Nl El Nf Ne Ft Ll Fw Nk Tf.
  destruct (tunnelled_after_yes (mute e) before h _ _ quiet w later line word (early_granted (mute e) before h l d2 (yes_mute e) G Gh F Nl El Nf) Gh Ne Ft Ll Fw Nk Tf) as (s & es1 & es2 & H & Ee & Ce & He & D & t & Ht & Ta).
  match type of H with history _ ?l = _ => destruct (history_mute e l A) as [H1 H2] end. rewrite H in H1, H2. cbn [fst snd] in H1, H2. apply similar_txs in H2 as [H2 H3].
  match type of H with history _ ?l = _ => exists (snd (history e l)) end. exists es1, es2. split; [rewrite <- H1; apply surjective_pairing|]. rewrite H3. split; [exact Ee|]. split; [now apply conversation_events_mute|]. split; [exact He|].
  split; [eapply done_mute; [exact H2|exact D]|]. exists t. rewrite H2. auto.
Qed.
