(** Tunnels: the response that grants one, in segments. *)
From Verif Require Import Base Spec SpecTx SpecMsg SpecResp SpecConnect ModelUtil ModelBstr ModelParsers ModelHeaders ModelState ModelTx ModelConn SpecConn ProofsBase ProofsBytes ProofsParsers ProofsHeaders ProofsTx ProofsConn ProofsCore ProofsLoop ProofsHist ProofsEval ProofsBody ProofsHead ProofsFrame ProofsStream ProofsChunk ProofsMsg ProofsRStream ProofsRHead ProofsRBody ProofsRMsg ProofsEnd.
From Verif Require Import ProofsConnect.

Lemma grant_status r : grant r -> good_status r.
Proof. intros (H1 & H2 & H3 & H4 & H5 & _). split; [tauto|]. split; [tauto|]. split; [lia|]. split; assumption. Qed.
(** What is known of the transaction while the response is read. *)
Record gready (t0 : tx) (r : response) (ls : list hline) (t : tx) : Prop := {
  gy_same : same_request t0 t; gy_status : x_status t = Some (rp_code r); gy_number : x_statusn t = RnValid (rp_status r); gy_reason : x_msg t = Some (rp_reason r);
  gy_protocol : t_proton (x_resp t) = ProtoV1_1; gy_table : merged (map kv_of ls) (x_resp t); gy_hpc : t_hpc (x_resp t) = false;
  gy_elen : t_elen (x_resp t) = 0; gy_mlen : t_mlen (x_resp t) = 0; gy_cep : t_cep (x_resp t) = CeNone; gy_prog : t_prog (x_resp t) = PHeaders }.
Lemma gready_more t0 r ls ls2 t : Forall good_hline ls -> Forall good_hline ls2 -> gready t0 r ls t -> gready t0 r (ls ++ ls2) (add_headers SResp (map ph_of ls2) t).
Proof.
  intros G1 G2 [R1 R2 R3 R4 R5 R6 R7 R8 R9 R10 R11]. destruct (add_headers_rgains (map ph_of ls2) t) as ((rr & h & E) & S & A2 & A3 & A4).
  constructor; try (rewrite ?A2, ?A3, ?A4; assumption); try (rewrite E; assumption).
  - eapply same_request_trans; eassumption.
  - now apply merged_rmore.
Qed.
Lemma gready_lined r t0 : x_resp t0 = x_resp tx_new -> gready t0 r [] (lined r (started t0)).
Proof.
  intros N. constructor; try reflexivity.
  - repeat split; reflexivity.
  - cbn. rewrite N. now split.
  - cbn. now rewrite N.
  - cbn. now rewrite N.
  - cbn. now rewrite N.
  - cbn. now rewrite N.
Qed.
Lemma gs_start e i tr C s a rest k cb p t : yes e -> rresting p i tr C s -> cx_table C i = Some t -> x_method t = Some (s2b "CONNECT") -> t_prog (x_req t) = PHeaders -> x_is09 t = false ->
  rest_of a rest k cb s -> rest <> [] ->
  exists s', step SResp e s = (ROk None, s') /\ rest_of a rest k cb s' /\
    rmile StLine None p None i (started t) ((mk_ev HResponseStart i PlNone, SOk) :: tr) C s'.
Proof.
  intros Y [D1 D2 D3 D4 D5 D6 D7 T D8 D9 D10] Ct A1 A8 A9 R Nr.
  destruct T as [[T L] | (T & _)]; [|congruence]. rewrite Ct in T.
  assert (Ne : pd_is_empty (s_input s) = false).
  { unfold pd_is_empty. rewrite (rest_pd_len _ _ _ _ _ R). destruct rest; [congruence|]. apply N.eqb_neq. unfold blen. cbn. lia. }
  assert (H : handle_state SResp e s = (ROk tt, push HResponseStart i PlNone (set_s_txs (tx_set i (started t) (s_txs s))
     (set_s_resp (set_d_state StLine (set_d_left None (set_d_clen None (s_resp s)))) s)))).
  { unfold handle_state, by_side, handle_response_state. unfold bind at 1, get_d at 1. cbn [s_dir]. rewrite D1. unfold response_idle.
    unfold bind at 1, input at 1. rewrite Ne. unfold bind at 1. rewrite (need_tx_get SResp _ _ t) by (cbn [s_idx]; rewrite D7; exact T). rewrite A8. change (prog_eqb PHeaders PNotStarted) with false. cbn [when]. unfold bind at 1, ret at 1.
    unfold bind at 1, upd_d at 1, modify at 1. unfold state_response_start. unfold bind at 1.
    rewrite (need_tx_get SResp _ _ t) by (cbn; rewrite D7; exact T). rewrite A9. unfold bind at 1. unfold bind at 1. unfold set_progress at 1, mod_txd.
    rewrite (mod_tx_get SResp _ _ _ t) by (cbn; rewrite D7; exact T). fold (started t).
    destruct s as [rq rs oe cc ci ri pi txs cf si so tr' lg inp]. destruct rs as [d1 d2 d3 d4 d5 d6 d7 d8 d9 d10]. cbn in *. subst. ev.
    assert (T2 : tx_get i (tx_set i (started t) txs) = Some (started t)) by apply (tx_get_set_eq _ _ _ _ T).
    rewrite (tx_hook_yes e _ _ _ (started t) Y) by exact T2. unfold push. ev. rewrite (the_tx_get SResp _ _ (started t)) by exact T2.
    change (x_method (started t)) with (x_method t). rewrite A1. reflexivity. }
  apply (step_next SResp) in H; [|exact (rest_no_gap _ _ _ _ _ R)|exact (rlive_not_tunnel _ D3)|discriminate].
  eexists. split; [exact H|]. split; [exact R|]. constructor; cbn; try assumption; try reflexivity.
  - apply (tx_get_set_eq _ _ _ _ T).
  - now rewrite D8.
  - intros j Hj. rewrite tx_get_set_other by congruence. now apply D10.
  - now apply stocked_set.
Qed.
Lemma gs_determine e C s a r t0 tr q tail k cb i t : yes e -> grant r -> x_methodn t0 = MKnown (s2b "CONNECT") ->
  rmile StBodyDetermine (Some HResponseHeaderData) [] None i t tr C s -> rest_of a tail k cb s -> cb + blen q = k -> skipn (N.to_nat cb) a = q ++ tail ->
  gready t0 r (rp_lines r) t ->
  exists s' t', step SResp e s = (ROk None, s') /\ rest_of a tail k k s' /\ gready t0 r (rp_lines r) t' /\
    rmile StFinalize None [] None i t' ((mk_ev HResponseHeaders i PlNone, SOk) :: (mk_ev HResponseHeaderData i (PlData q), SOk) :: tr) C s'.
Proof.
  intros Y G Mn [M1 M2 M3 M4 M5 M6 M7 M8 M9 M10 M11 M12] R Ek Sk Ry. rewrite <- M7 in M8.
  assert (E : response_body_determine e s = state_response_headers e (set_s_resp (set_d_state StFinalize (s_resp s)) s)).
  { unfold response_body_determine. unfold bind at 1. rewrite (need_tx_get SResp _ _ t) by exact M8. destruct (gy_same _ _ _ _ Ry) as (_ & _ & -> & _). rewrite Mn, (gy_number _ _ _ _ Ry).
    change (is_method (MKnown (s2b "CONNECT")) "CONNECT") with true. unfold in_range. replace ((200 <=? rp_status r) && (rp_status r <=? 299)) with true by (symmetry; destruct G as (_ & _ & G & _); lia). reflexivity. }
  destruct R as (I & L1 & L2).
  destruct (rheaders_done e (set_s_resp (set_d_state StFinalize (s_resp s)) s) t a k cb) as [l H]; try assumption; [lia|].
  rewrite <- E in H. subst k. rewrite (between_app a cb q tail Sk) in H.
  assert (Hs : handle_state SResp e s = response_body_determine e s) by (unfold handle_state, by_side, handle_response_state; unfold bind at 1, get_d at 1; cbn [s_dir]; now rewrite M1).
  rewrite <- Hs in H. apply (step_next SResp) in H; [|rewrite I; reflexivity|exact (rlive_not_tunnel _ M3)|discriminate].
  eexists _, (with_decompressors SResp (e_cfg e) t). split; [exact H|]. split; [split; [reflexivity|split; assumption]|]. split.
  - destruct Ry as [R1 R2 R3 R4 R5 R6 R7 R8 R9 R10 R11].
    assert (Ed : x_resp (with_decompressors SResp (e_cfg e) t) = set_t_cep CeNone (set_t_ce CeNone (x_resp t))).
    { apply with_decomp_resp. apply (table_lacks (rp_lines r) (t_headers (x_resp t))); [apply G|apply R6|apply G]. }
    constructor; rewrite ?Ed; try assumption; try reflexivity.
  - constructor; cbn; try assumption; try reflexivity.
    + rewrite M7 in *. apply (tx_get_set_eq _ _ _ _ M8).
    + now rewrite M7, M9.
    + intros j Hj. rewrite tx_get_set_other by congruence. now apply M11.
    + now apply stocked_set.
Qed.
Lemma grant_complete_eval e s t : yes e -> tx_get (s_pidx s) (s_txs s) = Some t -> t_cep (x_resp t) = CeNone -> t_prog (x_resp t) = PHeaders -> t_prog (x_req t) = PHeaders ->
  d_recv (s_resp s) = None -> d_status (s_resp s) <> SsDataOther -> s_other_at_end s = false ->
  state_response_complete e s = (ROk tt, 
    set_s_resp (set_d_state StIdle (s_resp s)) (set_s_pidx (wadd (s_pidx s) 1)
     (set_s_txs (tx_set (s_pidx s) (rcompleted_tx t) (s_txs s)) (push HResponseComplete (s_pidx s) PlNone s)))).
Proof.
  intros Y H C P Q R Lv Ot. unfold state_response_complete. unfold bind at 1, get at 1. unfold bind at 1. rewrite (need_tx_get SResp _ _ _ H).
  rewrite P. change (prog_eqb PHeaders PComplete) with false. cbn [negb when].
  unfold bind at 1. unfold bind at 1. unfold set_progress, mod_txd. rewrite (mod_tx_get SResp _ _ _ t) by exact H. cbn [s_idx].
  set (t1 := upd_dir SResp (set_t_prog PComplete) t).
  assert (K : when (negb (coding_eqb (t_coding (x_resp t)) CdNoBody)) (ignore (body_data SResp None)) e (set_s_txs (tx_set (s_pidx s) t1 (s_txs s)) s) =
    (ROk tt, set_s_txs (tx_set (s_pidx s) (rcompleted_tx t) (s_txs s)) s)).
  { unfold rcompleted_tx. fold t1. destruct (coding_eqb _ _); [reflexivity|]. cbn [negb when]. unfold ignore, bind, try. rewrite (body_data_plain SResp e _ t1 None Y); [|apply (tx_get_set_eq _ _ _ _ H)|exact C].
    cbv zeta iota beta. cbn [s_idx s_txs set_s_txs s_pidx]. unfold body_hooks. cbn. destruct s. cbn. rewrite tx_set_set. reflexivity. }
  unfold bind at 1. rewrite K. clear K. set (t2 := rcompleted_tx t).
  assert (Oc : is_complete t2 = false).
  { unfold is_complete, t2, rcompleted_tx. destruct (coding_eqb _ _); cbn [x_req upd_dir set_x_dir set_x_resp x_dir grow x_resp]; cbn; rewrite Q; reflexivity. }
  assert (H2 : tx_get (s_pidx s) (tx_set (s_pidx s) t2 (s_txs s)) = Some t2) by apply (tx_get_set_eq _ _ _ _ H). clearbody t2. clear t1.
  unfold bind at 1. rewrite (tx_hook_yes e _ _ _ t2 Y) by exact H2.
  unfold receiver_finalize_clear. unfold bind at 1, get_d at 1. cbn [s_dir].
  destruct s as [rq rs oe cc ci ri pi txs cf si so tr lg inp]. destruct rs as [d1 d2 d3 d4 d5 d6 d7 d8 d9 d10]. cbn in H, R, Lv, Ot, H2. subst d10 oe.
  unfold push. ev. unfold request_parser_check_waiting. ev. replace (match d1 with SsDataOther => true | _ => false end) with false by (destruct d1; reflexivity || congruence). ev.
  unfold finalize. ev.
  rewrite H2, Oc. unfold response_next, check_free, push. ev. rewrite H2, Oc. destruct (c_auto_destroy (e_cfg e)); reflexivity.
Qed.
Lemma gs_complete e C s a rest k cb i t tr buf s1 : yes e -> rmile StFinalize None buf None i t tr C s1 -> snd (cx_rest C) = false ->
  pd_is_gap (s_input s) = false -> handle_response_state e s = state_response_complete e s1 -> rest_of a rest k cb s1 ->
  t_cep (x_resp t) = CeNone -> t_prog (x_resp t) = PHeaders -> t_prog (x_req t) = PHeaders -> i + 1 < 2 ^ 64 ->
  exists s', step SResp e s = (ROk None, s') /\ rest_of a rest k cb s' /\
    rresting buf (i + 1) ((mk_ev HResponseComplete i PlNone, SOk) :: tr) (rnext_ctx false i (rcompleted_tx t) C) s'.
Proof.
  intros Y [M1 M2 M3 M4 M5 M6 M7 M8 M9 M10 M11 M12] Ot G H R C1 C2 C3 Li. rewrite <- M7 in M8.
  rewrite (grant_complete_eval e s1 t Y M8 C1 C2 C3 M4 ltac:(destruct M3 as [-> | ->]; discriminate)) in H by (rewrite <- M10 in Ot; exact Ot).
  assert (Wi : wadd (s_pidx s1) 1 = i + 1) by (rewrite M7; unfold wadd; apply N.mod_small; exact Li).
  apply (step_next SResp) in H; [|exact G|exact (rlive_not_tunnel _ M3)|discriminate].
  eexists. split; [exact H|]. split; [exact R|].
  rewrite M7 in *. clear H. unfold rnext_ctx. set (t2 := rcompleted_tx t). clearbody t2.
  assert (St : stocked (cx_size C) (tx_set i t2 (s_txs s1))) by now apply stocked_set.
  assert (Os : forall j, j <> i -> tx_get j (tx_set i t2 (s_txs s1)) = cx_table C j) by (intros j Hj; rewrite tx_get_set_other by congruence; now apply M11).
  assert (Et : tx_get i (tx_set i t2 (s_txs s1)) = Some t2) by apply (tx_get_set_eq _ _ _ _ M8).
  constructor; cbn; try assumption; try reflexivity; try (now left); try (now rewrite M9).
  - left. split; [|exact St]. destruct (i + 1 =? i) eqn:E; [lia|]. apply Os. lia.
  - intros j Hj. destruct (j =? i) eqn:E; [apply N.eqb_eq in E; now subst j|apply Os; lia].
Qed.

(** * From call to call *)
Section Grant.
Variables (e : env) (r : response) (i : N) (C : ctx) (tr : list (event * status)) (t0 : tx).
Hypothesis Y : yes e.
Hypothesis Gr : grant r.
Hypothesis Lim : blen (head_text r) <= c_field_limit (e_cfg e).
Hypothesis Ct : cx_table C i = Some t0.
Hypothesis Ot : snd (cx_rest C) = false.
Hypothesis Li : i + 1 < 2 ^ 64.
Hypothesis A1 : x_method t0 = Some (s2b "CONNECT").
Hypothesis A2 : x_methodn t0 = MKnown (s2b "CONNECT").
Hypothesis A3 : t_prog (x_req t0) = PHeaders.
Hypothesis A4 : x_is09 t0 = false.
Hypothesis A5 : x_resp t0 = x_resp tx_new.
Definition gafter : bytes := block_text (rp_lines r) ++ [13; 10].
Definition ghead_events (es : list event) : Prop :=
  exists hs, concat hs = gafter /\ es = rline_events i ++ map (ev_rheader i) hs ++ [mk_ev HResponseHeaders i PlNone; mk_ev HResponseComplete i PlNone].
(** The bytes [S] of the response are still to come. *)
Inductive gpaused : bytes -> st -> Prop :=
| gp_idle s : rresting [] i tr C s -> gpaused (head_text r) s
| gp_line p l s : p ++ l = line_body r -> rmile StLine None p None i (started t0) (tr_of [ev_rstart i] tr) C s -> gpaused ((l ++ [13; 10]) ++ gafter) s
| gp_headers ls1 ls2 p q t hs s : rp_lines r = ls1 ++ ls2 -> p ++ q = block_text ls2 ++ [13; 10] -> q <> [] -> ls2 <> [] \/ rp_lines r = [] -> concat hs = block_text ls1 ++ p ->
    gready t0 r ls1 t ->
    rmile StHeaders (Some HResponseHeaderData) [] (Some p) i t (tr_of (rline_events i ++ map (ev_rheader i) hs) tr) C s -> gpaused q s
| gp_done t es s : gready t0 r (rp_lines r) t -> ghead_events es -> rresting [] (i + 1) (tr_of es tr) (rnext_ctx false i (rcompleted_tx t) C) s -> gpaused [] s.
Definition goutcome (S : bytes) (s : st) : Prop := exists s', rruns e s s' /\ gpaused S s'.
Definition gclean (S : bytes) : Prop := S <> [10] ++ gafter.
Lemma goutcome_next S s s1 : step SResp e s = (ROk None, s1) -> goutcome S s1 -> goutcome S s.
Proof using. intros H (s' & R & P). exists s'. split; [exact (rruns_next _ _ _ _ H R)|exact P]. Qed.
Lemma gfrom_headers S s a rest k t p q ls1 ls2 hs : rp_lines r = ls1 ++ ls2 ->
  opt_text p ++ q = block_text ls2 ++ [13; 10] -> q <> [] -> ls2 <> [] \/ rp_lines r = [] -> concat hs = block_text ls1 ++ opt_text p ->
  gready t0 r ls1 t ->
  rmile StHeaders (Some HResponseHeaderData) [] p i t (tr_of (rline_events i ++ map (ev_rheader i) hs) tr) C s ->
  rest_of a rest k k s -> rest ++ S = q -> goutcome S s.
Proof using Y Gr Lim Ot Li A2 A3 A4.
  intros El Eq Nq Hp Eh Rd M R E. assert (Gl : Forall good_hline (rp_lines r)) by apply Gr. rewrite El in Gl. apply Forall_app in Gl as [Gl1 Gl].
  destruct S as [|y0 y].
  - rewrite app_nil_r in E. subst q. assert (Eb : ends_block ls2 []).
    { destruct ls2; [right; auto|left; split; [discriminate|]]. right. split; intros; discriminate. }
    rewrite <- (app_nil_r rest) in R.
    destruct (rs_headers e C s a ls2 _ p rest [] k i t Gl Eb M (gy_hpc _ _ _ _ Rd) (gy_prog _ _ _ _ Rd) R Nq Eq) as (s1 & H1 & R1 & Sk & M1). apply (goutcome_next _ _ _ H1).
    assert (Rd1 : gready t0 r (rp_lines r) (add_headers SResp (map ph_of ls2) t)) by (rewrite El; now apply gready_more).
    destruct (gs_determine e C s1 a r t0 _ rest [] (k + blen rest) k i _ Y Gr A2 M1 R1 eq_refl Sk Rd1) as (s2 & t2 & H2 & R2 & Rd2 & M2). apply (goutcome_next _ _ _ H2).
    assert (Pq : t_prog (x_req t2) = PHeaders) by (destruct (gy_same _ _ _ _ Rd2) as (-> & _); exact A3).
    destruct (gs_complete e C s2 a [] _ _ i t2 _ [] s2 Y M2 Ot (rest_no_gap _ _ _ _ _ R2)
      (rfinal_empty e s2 a _ _ (ProofsRStream.rm_state _ _ _ _ _ _ _ _ _ M2) (ProofsRStream.rm_live _ _ _ _ _ _ _ _ _ M2) R2) R2 (gy_cep _ _ _ _ Rd2) (gy_prog _ _ _ _ Rd2) Pq Li) as (s3 & H3 & R3 & Q3).
    apply (goutcome_next _ _ _ H3). destruct (rs_rest e _ _ _ s3 a _ _ Q3 R3) as (s4 & H4 & Q4). exists s4. split; [exact H4|].
    apply (gp_done t2 ((rline_events i ++ map (ev_rheader i) hs) ++ [ev_rheader i rest; mk_ev HResponseHeaders i PlNone; mk_ev HResponseComplete i PlNone])).
    + exact Rd2.
    + exists (hs ++ [rest]). split; [unfold gafter; rewrite concat_app, Eh, El; cbn [concat]; rewrite app_nil_r, <- app_assoc, Eq; unfold block_text; now rewrite map_app, concat_app, <- app_assoc|].
      rewrite map_app. cbn [map]. now rewrite <- !app_assoc.
    + rewrite tr_of_app. exact Q4.
  - rewrite <- E, app_assoc in Eq. destruct (rhead_cut ls2 (opt_text p ++ rest) (y0 :: y) Gl Eq) as (l1 & l2 & q' & -> & E3 & E4 & E5 & E6); [discriminate|].
    apply Forall_app in Gl as [Gl2 _].
    destruct (rs_headers_part e C s a l1 _ p rest q' k i _ _ Y Gl2 M (gy_hpc _ _ _ _ Rd) R E3 E5) as (s1 & H1 & M1).
    { etransitivity; [|exact Lim]. unfold head_text. rewrite El. unfold block_text in *. rewrite !map_app, !concat_app, <- !app_assoc.
      rewrite <- E4. unfold blen. rewrite !app_length. lia. }
    exists s1. split; [exact H1|].
    apply (gp_headers (ls1 ++ l1) l2 q' (y0 :: y) (add_headers SResp (map ph_of l1) t) (hs ++ [rest])); [now rewrite El, app_assoc|exact E4|discriminate| | | |].
    + destruct E6 as [E6 | E6]; [now left|]. right. destruct Hp as [Hp | Hp]; [congruence|exact Hp].
    + rewrite concat_app, Eh. cbn [concat]. rewrite app_nil_r, <- app_assoc, E3. unfold block_text. now rewrite map_app, concat_app, <- app_assoc.
    + now apply gready_more.
    + rewrite (map_app (ev_rheader i)). cbn [map]. rewrite app_assoc, tr_of_app. exact M1.
Qed.
Lemma gfrom_line S s a rest k cb p l : gclean S -> p ++ l = line_body r -> rmile StLine None p None i (started t0) (tr_of [ev_rstart i] tr) C s ->
  rest_of a rest k cb s -> rest ++ S = (l ++ [13; 10]) ++ gafter -> goutcome S s.
Proof using Y Gr Lim Ot Li A2 A3 A4 A5.
  intros Cl El M R E. pose proof (grant_status _ Gr) as Gs.
  assert (Lim1 : blen (status_line_text r) <= c_field_limit (e_cfg e)) by (etransitivity; [|exact Lim]; unfold head_text, blen; rewrite app_length; lia).
  assert (Fin : forall tail, rest = (l ++ [13; 10]) ++ tail -> gafter = tail ++ S -> goutcome S s).
  { intros tail -> Et. destruct (rs_line e C s a r _ p l tail k cb i _ Y Gs M R El Lim1) as (s1 & H1 & R1 & M1). apply (goutcome_next _ _ _ H1).
    eapply (gfrom_headers S s1 a tail _ (lined r (started t0)) None gafter [] (rp_lines r) []); [reflexivity|reflexivity|unfold gafter; destruct (block_text _); discriminate| |reflexivity| |exact M1|exact R1|].
    - destruct (rp_lines r); [now right|left; discriminate].
    - exact (gready_lined r t0 A5).
    - now symmetry. }
  apply app_split in E as [(y & E1 & E2) | (y & E1 & E2)]; [|apply (Fin y); assumption].
  destruct y as [|y0 y]; [rewrite app_nil_r in E1; apply (Fin []); [now rewrite app_nil_r|symmetry; exact E2]|].
  symmetry in E1. destruct (cut_line _ _ _ E1) as (l' & El' & Ep); [discriminate|intro Z; apply Cl; rewrite E2, Z; reflexivity|]. subst l.
  destruct (rs_line_part e C s a _ p rest k cb i _ M R) as (s1 & H1 & M1).
  { rewrite app_assoc in El. apply (plain_part _ l' r Gs) in El. now apply Forall_app in El. }
  { etransitivity; [|exact Lim1]. rewrite status_line_body, <- El. unfold blen. rewrite !app_length. lia. }
  exists s1. split; [exact H1|]. rewrite E2, El'. apply (gp_line (p ++ rest) l'); [now rewrite <- app_assoc|assumption].
Qed.
Lemma ggoes c S s : gclean S -> c <> [] -> gpaused (c ++ S) s -> goutcome S (opened SResp c s).
Proof using Y Gr Lim Ot Li A1 A2 A3 A4 A5 Ct.
  intros Cl Nc P. remember (c ++ S) as X eqn:EX. pose proof (ropened_rest c s) as R.
  destruct P as [s Q|p l s El M|ls1 ls2 p q t hs s El Eq Nq Hp Eh Rd M|t es s Rd He Q].
  - apply (ropened_resting _ _ _ _ c) in Q.
    destruct (gs_start e i tr C _ c c 0 0 [] t0 Y Q Ct A1 A3 A4 R Nc) as (s1 & H1 & R1 & M1). apply (goutcome_next _ _ _ H1).
    apply (gfrom_line S s1 c c 0 0 [] (line_body r) Cl eq_refl M1 R1). rewrite <- EX. unfold gafter, head_text. rewrite status_line_body. now rewrite <- !app_assoc.
  - apply (gfrom_line S _ c c 0 0 p l Cl El (proj1 (ropened_mile _ _ _ _ _ _ _ _ c _ M)) R). now symmetry.
  - apply (gfrom_headers S _ c c 0 t (Some p) q ls1 ls2 hs El Eq Nq Hp Eh Rd (proj1 (ropened_mile _ _ _ _ _ _ _ _ c _ M)) R). now symmetry.
  - destruct c; [congruence|discriminate].
Qed.
Lemma gbufsum S s : gpaused S s -> bufsum (s_resp s) <= c_field_limit (e_cfg e) /\ live_status (d_status (s_resp s)).
Proof using Lim Li Ot A4.
  intro P. unfold bufsum. destruct P as [s Q|p l s El M|ls1 ls2 p q t hs s El Eq Nq Hp Eh Rd M|t es s Rd He Q].
  1,4: rewrite (rr_buf _ _ _ _ _ Q), (rr_header _ _ _ _ _ Q); split; [change (blen []) with 0; lia|exact (rlive_live _ (rr_live _ _ _ _ _ Q))].
  all: rewrite (ProofsRStream.rm_buf _ _ _ _ _ _ _ _ _ M), (ProofsRStream.rm_header _ _ _ _ _ _ _ _ _ M); (split; [|exact (rlive_live _ (ProofsRStream.rm_live _ _ _ _ _ _ _ _ _ M))]).
  - rewrite N.add_0_r. etransitivity; [|apply Lim]. unfold head_text. rewrite status_line_body, <- El. unfold blen. rewrite !app_length. lia.
  - change (blen []) with 0. rewrite N.add_0_l. etransitivity; [|apply Lim].
    unfold head_text. rewrite El. unfold block_text in *. rewrite !map_app, !concat_app, <- !app_assoc, <- Eq. unfold blen. rewrite !app_length. lia.
Qed.
Lemma gcalls cs : forall s, ~ In [] cs -> (forall a b, cs = a ++ b -> gclean (concat b)) -> gpaused (concat cs) s ->
  exists s', run_ops (resps cs) e s = (ROk (more (resps cs)), s') /\ gpaused [] s'.
Proof using Y Gr Lim Ot Li A1 A2 A3 A4 A5 Ct.
  induction cs as [|c cs IH]; intros s Ne Cl P; [exists s; split; [reflexivity|exact P]|].
  cbn [concat] in P. assert (Nc : c <> []) by (intros ->; apply Ne; now left).
  destruct (gbufsum _ _ P) as [B L]. destruct (ggoes c _ s (Cl [c] cs eq_refl) Nc P) as (s1 & R1 & P1).
  apply (rruns_data_call e c s s1 Nc B L) in R1. destruct (IH s1) as (s2 & R2 & P2); [intro Z; apply Ne; now right| |exact P1|].
  - intros a b ->. apply (Cl (c :: a) b). reflexivity.
  - exists s2. split; [|exact P2]. unfold resps in *. cbn [map run_ops]. unfold bind at 1. cbn [run_op]. unfold bind at 1. rewrite R1. unfold ret at 1. unfold bind at 1. rewrite R2. reflexivity.
Qed.
Lemma grants cs s : concat cs = head_text r -> ~ In [] cs -> (forall a b, cs = a ++ b -> gclean (concat b)) -> rresting [] i tr C s ->
  exists s' t es, run_ops (resps cs) e s = (ROk (more (resps cs)), s') /\ gready t0 r (rp_lines r) t /\ ghead_events es /\
    rresting [] (i + 1) (tr_of es tr) (rnext_ctx false i (rcompleted_tx t) C) s'.
Proof using Y Gr Lim Ot Li A1 A2 A3 A4 A5 Ct.
  intros Ec Ne Cl Q. destruct (gcalls cs s Ne Cl) as (s' & H & P); [rewrite Ec; constructor; exact Q|]. exists s'.
  remember (@nil N) as X eqn:EX in P. destruct P as [s' Q0|p l s' El M|ls1 ls2 p q t hs s' El Eq Nq Hp Eh Rd M|t es s' Rd He Q1].
  - exfalso. unfold head_text in EX. rewrite status_line_body in EX. apply app_eq_nil in EX as [EX _]. apply app_eq_nil in EX as [_ EX]. discriminate EX.
  - exfalso. apply app_eq_nil in EX as [EX _]. apply app_eq_nil in EX as [_ EX]. discriminate EX.
  - congruence.
  - exists t, es. auto.
Qed.
End Grant.
