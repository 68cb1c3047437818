(** A 101 response: the connection becomes a tunnel. *)
From Verif Require Import Base Spec SpecTx SpecMsg SpecResp SpecConnect SpecUpgrade ModelUtil ModelBstr ModelParsers ModelHeaders ModelUri ModelState ModelTx ModelConn SpecConn ProofsBase ProofsBytes ProofsParsers ProofsHeaders ProofsBstr ProofsTx ProofsConn ProofsCore ProofsLoop ProofsHist ProofsEval ProofsBody ProofsHead ProofsFrame ProofsStream ProofsChunk ProofsMsg ProofsRStream ProofsRHead ProofsRBody ProofsRMsg ProofsEnd ProofsClose.
From Verif Require Import ProofsConnect ProofsConnect2 ProofsConnect3 ProofsConnect4.

Lemma switch_status r : switch r -> good_status r /\ rp_status r = 101.
Proof.
  intros (H1 & H2 & H3 & _). unfold good_status, rp_status. rewrite H1. split; [|reflexivity]. split; [reflexivity|]. split; [repeat constructor; discriminate|]. split; [vm_compute; discriminate|]. split; assumption.
Qed.
Lemma add_headers_h2 hs : forall t, x_h2 (add_headers SResp hs t) = x_h2 t.
Proof.
  induction hs as [|h hs IH]; intro t; [reflexivity|]. cbn [add_headers fold_left]. change (x_h2 (add_headers SResp hs (fst (add_header SResp h t))) = x_h2 t). rewrite IH.
  unfold add_header. destruct (header_flags SResp h (x_flags t)) as [[xf hf] lg]. destruct (merge_header SResp _ _) as [d lg2]. reflexivity.
Qed.
Definition says_h2c (hs : headers_tab) : bool :=
  match headers_get_nocase_nozero hs (s2b "upgrade") with Some h => is_some (index_of_nocase_nozero (hd_value h) (s2b "h2c")) | None => false end.
Lemma says_h2c_silent ls hs : Forall good_hline ls -> map view hs = merged_table (map kv_of ls) -> no_line "upgrade" ls -> says_h2c hs = false.
Proof. intros G V Nl. unfold says_h2c. rewrite get_lacks by (eapply table_lacks; eassumption). reflexivity. Qed.
Lemma says_h2c_named ls hs l : Forall good_hline ls -> map view hs = merged_table (map kv_of ls) -> only_line "upgrade" ls l ->
  (says_h2c hs = true <-> exists a w b, nonul (hl_value l) = a ++ w ++ b /\ name_eq w (s2b "h2c")).
Proof.
  intros G V Ol. unfold says_h2c. destruct (table_only _ _ G V _ _ Ol) as (h & Hh & Ev). rewrite (get_the_header _ _ _ Hh), Ev.
  pose proof (search_complete (hl_value l) (s2b "h2c")) as Sc. destruct (index_of_nocase_nozero _ _) as [k|]; cbn [is_some].
  - split; [|reflexivity]. intros _. apply Sc. eauto.
  - split; [discriminate|]. intro H. destruct Sc as [_ Sc]. destruct Sc as (k & Hk); [split; [discriminate|exact H]|discriminate].
Qed.
Definition sw_tx (e : env) (t : tx) : tx := with_decompressors SResp (e_cfg e) (if says_h2c (t_headers (x_resp t)) then set_x_h2 true t else t).
Lemma ss_determine e C s a r m t0 tr q tail k cb i t : yes e -> switch r -> good_message m -> asked m t0 -> live_status (d_status (snd (fst (cx_rest C)))) ->
  rmile StBodyDetermine (Some HResponseHeaderData) [] None i t tr C s -> rest_of a tail k cb s -> cb + blen q = k -> skipn (N.to_nat cb) a = q ++ tail ->
  gready t0 r (rp_lines r) t -> x_h2 t = false ->
  exists s', step SResp e s = (ROk (Some SsTunnel), s') /\ tunnel_in_use s' /\ s_trace s' = (mk_ev HResponseHeaders i PlNone, SOk) :: (mk_ev HResponseHeaderData i (PlData q), SOk) :: tr /\
    tx_get i (s_txs s') = Some (sw_tx e t) /\ (forall j, j <> i -> tx_get j (s_txs s') = cx_table C j).
Proof.
  intros Y G Gm A Lq [M1 M2 M3 M4 M5 M6 M7 M8 M9 M10 M11 M12] R Ek Sk Ry Xh. rewrite <- M7 in M8. rewrite <- M10 in Lq. unfold r_outside in Lq. cbn [fst snd] in Lq.
  pose proof (ho_number _ _ A) as Mn. destruct (gy_same _ _ _ _ Ry) as (_ & _ & Es & _). rewrite <- Es in Mn. pose proof (gy_number _ _ _ _ Ry) as Sn. rewrite (proj2 (switch_status _ G)) in Sn.
  assert (V : map view (t_headers (x_resp t)) = merged_table (map kv_of (rp_lines r))) by apply Ry.
  assert (Nc : is_method (MKnown (rq_method (m_req m))) "CONNECT" = false).
  { cbn [is_method]. apply Bool.not_true_is_false. intro Z. apply bytes_eqb_eq in Z. destruct Gm as ((_ & Hc & _) & _). now apply Hc. }
  destruct G as (_ & _ & _ & Gl & Ncl & Nte & Nce & _).
  set (t1 := if says_h2c (t_headers (x_resp t)) then set_x_h2 true t else t).
  set (s1 := set_s_resp (set_d_status SsTunnel (set_d_state StFinalize (s_resp s))) (set_s_req (set_d_status SsTunnel (s_req s)) (if says_h2c (t_headers (x_resp t)) then set_s_txs (tx_set (s_pidx s) t1 (s_txs s)) s else s))).
  assert (E : response_body_determine e s = state_response_headers e s1).
  { unfold response_body_determine. unfold bind at 1. rewrite (need_tx_get SResp _ _ t) by exact M8. rewrite Mn, Nc. cbn [andb when]. unfold bind at 1, ret at 1. unfold bind at 1. rewrite (the_tx_get SResp _ _ t) by exact M8. cbv zeta. unfold bind at 1, get_d at 1. rewrite Sn.
    change (eq_num (RnValid 101) 101) with true. cbv iota.
    rewrite (get_lacks _ (s2b "transfer-encoding")) by (eapply table_lacks; eassumption). rewrite (get_lacks _ (s2b "content-length")) by (eapply table_lacks; eassumption). cbn [is_some negb andb].
    change (match headers_get_nocase_nozero (t_headers (x_resp t)) (s2b "upgrade") with Some h => is_some (index_of_nocase_nozero (hd_value h) (s2b "h2c")) | None => false end) with (says_h2c (t_headers (x_resp t))).
    replace (negb (sstate_eqb (d_status (s_dir SReq s)) SsError)) with true by (cbn [s_dir]; destruct Lq as [-> | [-> | ->]]; reflexivity).
    unfold s1, t1. clear s1 t1. destruct (says_h2c (t_headers (x_resp t))).
    - cbn [when]. unfold bind at 1. rewrite (mod_tx_get SResp _ _ _ t) by exact M8. cbn [s_idx]. destruct s as [rq rs oe cc ci ri pi txs cf si so tr' lg inp]. destruct rs as [d1 d2 d3 d4 d5 d6 d7 d8 d9 d10]. reflexivity.
    - cbn [when]. unfold bind at 1, ret at 1. destruct s as [rq rs oe cc ci ri pi txs cf si so tr' lg inp]. destruct rs as [d1 d2 d3 d4 d5 d6 d7 d8 d9 d10]. reflexivity. }
  destruct R as (I & L1 & L2).
  assert (T1 : tx_get (s_pidx s1) (s_txs s1) = Some t1).
  { unfold s1, t1. destruct (says_h2c _); [exact (tx_get_set_eq _ _ _ _ M8)|exact M8]. }
  assert (O1 : forall j, j <> i -> tx_get j (s_txs s1) = cx_table C j).
  { intros j Hj. unfold s1. destruct (says_h2c _); [|now apply M11]. cbn [s_txs set_s_resp set_s_req set_s_txs]. rewrite M7, tx_get_set_other by congruence. now apply M11. }
  assert (P1 : s_pidx s1 = i /\ s_trace s1 = tr /\ s_input s1 = s_input s) by (unfold s1; destruct (says_h2c _); repeat split; assumption).
  destruct P1 as (P1 & P2 & P3). destruct (rheaders_done e s1 t1 a k cb Y T1) as [l H]; [rewrite P3; exact I|lia|lia|unfold s1; destruct (says_h2c _); exact M4|].
  rewrite <- E in H. subst k. rewrite (between_app a cb q tail Sk) in H.
  assert (Hs : handle_state SResp e s = response_body_determine e s) by (unfold handle_state, by_side, handle_response_state; unfold bind at 1, get_d at 1; cbn [s_dir]; now rewrite M1).
  rewrite <- Hs in H.
  assert (U1 : d_status (s_req s1) = SsTunnel /\ d_status (s_resp s1) = SsTunnel) by (split; reflexivity). destruct U1 as [U1 U2]. clearbody s1.
  match type of H with _ = (_, ?z) => exists z end. split; [|split; [|split; [|split]]].
  - unfold step. unfold bind at 1, input at 1. unfold bind at 1, get_d at 1. replace (pd_is_gap (s_input s)) with false by (rewrite I; reflexivity). cbn [andb]. unfold bind at 1, try at 1. rewrite H. cbv beta iota. unfold bind at 1, get_d at 1. cbn [s_dir s_resp set_s_logs set_s_trace set_s_input set_s_txs set_s_resp d_status set_d_recv]. rewrite U2. reflexivity.
  - split; [exact U1|exact U2].
  - cbn [s_trace set_s_logs set_s_trace]. now rewrite P1, P2.
  - cbn [s_txs set_s_logs set_s_trace set_s_input set_s_txs]. rewrite P1 in *. apply (tx_get_set_eq _ _ _ _ T1).
  - intros j Hj. cbn [s_txs set_s_logs set_s_trace set_s_input set_s_txs]. rewrite P1, tx_get_set_other by congruence. now apply O1.
Qed.
Lemma switched_of e m r t0 t : switch r -> asked m t0 -> gready t0 r (rp_lines r) t -> x_h2 t = false -> asked m (sw_tx e t) /\ switched r (sw_tx e t).
Proof.
  intros G A [R1 R2 R3 R4 R5 R6 R7 R8 R9 R10 R11] Xh. rewrite (proj2 (switch_status _ G)) in R3. destruct G as (_ & _ & _ & Gl & Ncl & Nte & Nce & _).
  pose proof (proj1 R6) as V. cbn beta in V. set (t1 := if says_h2c (t_headers (x_resp t)) then set_x_h2 true t else t).
  assert (X1 : x_resp t1 = x_resp t) by (unfold t1; destruct (says_h2c _); reflexivity).
  assert (Hh : x_h2 t1 = says_h2c (t_headers (x_resp t))) by (unfold t1; destruct (says_h2c _); [reflexivity|exact Xh]).
  assert (S1 : same_request t0 t1 /\ x_status t1 = x_status t /\ x_statusn t1 = x_statusn t /\ x_msg t1 = x_msg t) by (unfold t1; destruct (says_h2c _); (split; [exact R1|repeat split; reflexivity])).
  destruct S1 as (S1 & S2 & S3 & S4).
  assert (Ed : x_resp (with_decompressors SResp (e_cfg e) t1) = set_t_cep CeNone (set_t_ce CeNone (x_resp t1))).
  { apply with_decomp_resp. rewrite X1. apply (table_lacks (rp_lines r) (t_headers (x_resp t))); assumption. }
  split.
  - apply (asked_same _ _ _ A). unfold sw_tx. fold t1. exact S1.
  - unfold sw_tx. fold t1. constructor; rewrite ?Ed, ?X1.
    + cbn. rewrite S2. exact R2.
    + cbn. rewrite S3. exact R3.
    + cbn. rewrite S4. exact R4.
    + exact R5.
    + exact V.
    + exact R8.
    + exact R9.
    + exact R11.
    + intro Nl. change (x_h2 t1 = false). rewrite Hh. now apply (says_h2c_silent (rp_lines r)).
    + intros l Ol. change (x_h2 t1 = true <-> exists a w b, nonul (hl_value l) = a ++ w ++ b /\ name_eq w (s2b "h2c")). rewrite Hh. now apply (says_h2c_named (rp_lines r)).
Qed.

(** * From call to call *)
Section Switch.
Variables (e : env) (m : message) (r : response) (i : N) (C : ctx) (tr : list (event * status)) (t0 : tx).
Hypothesis Y : yes e.
Hypothesis Gm : good_message m.
Hypothesis Gr : switch r.
Hypothesis Lim : blen (head_text r) <= c_field_limit (e_cfg e).
Hypothesis Ct : cx_table C i = Some t0.
Hypothesis Lq : live_status (d_status (snd (fst (cx_rest C)))).
Hypothesis Ho : holds m t0.
Definition safter : bytes := block_text (rp_lines r) ++ [13; 10].
(** The bytes [S] of the response are still to come. *)
Inductive spaused : bytes -> st -> Prop :=
| sp_idle s : rresting [] i tr C s -> spaused (head_text r) s
| sp_line p l s : p ++ l = line_body r -> rmile StLine None p None i (started t0) (tr_of [ev_rstart i] tr) C s -> spaused ((l ++ [13; 10]) ++ safter) s
| sp_headers ls1 ls2 p q t hs s : rp_lines r = ls1 ++ ls2 -> p ++ q = block_text ls2 ++ [13; 10] -> q <> [] -> ls2 <> [] \/ rp_lines r = [] -> concat hs = block_text ls1 ++ p ->
    gready t0 r ls1 t -> x_h2 t = false ->
    rmile StHeaders (Some HResponseHeaderData) [] (Some p) i t (tr_of (rline_events i ++ map (ev_rheader i) hs) tr) C s -> spaused q s.
(** The last call: a tunnel. *)
Definition tunnels (s s' : st) : Prop := exists n, loops SResp e n s SsTunnel s'.
Definition over_to (s' : st) : Prop := tunnel_in_use s' /\ (exists t, tx_get i (s_txs s') = Some t /\ asked m t /\ switched r t) /\ (forall j, j <> i -> tx_get j (s_txs s') = cx_table C j) /\
  exists es, switch_events i r es /\ s_trace s' = tr_of es tr.
Definition soutcome (S : bytes) (s : st) : Prop := (S <> [] /\ exists s', rruns e s s' /\ spaused S s') \/ (S = [] /\ exists s', tunnels s s' /\ over_to s').
Definition sclean (S : bytes) : Prop := S <> [10] ++ safter.
Lemma soutcome_next S s s1 : step SResp e s = (ROk None, s1) -> soutcome S s1 -> soutcome S s.
Proof using. intros H [(N0 & s' & R & P) | (N0 & s' & (n & R) & P)]; [left|right]; (split; [exact N0|]); exists s'; (split; [|exact P]); [exact (rruns_next _ _ _ _ H R)|exists (Datatypes.S n); eapply LoopsMore; eassumption]. Qed.
Lemma h2_fresh : x_h2 t0 = false.
Proof using Ho. destruct Ho as [_ H]. unfold reply_part in H. now injection H. Qed.
Lemma sfrom_headers S x s a rest k t p q ls1 ls2 hs : (S <> [] -> x = []) -> smooth x -> (rp_lines r = [] -> x = []) -> rp_lines r = ls1 ++ ls2 ->
  opt_text p ++ q = block_text ls2 ++ [13; 10] -> q <> [] -> ls2 <> [] \/ rp_lines r = [] -> concat hs = block_text ls1 ++ opt_text p ->
  gready t0 r ls1 t -> x_h2 t = false ->
  rmile StHeaders (Some HResponseHeaderData) [] p i t (tr_of (rline_events i ++ map (ev_rheader i) hs) tr) C s ->
  rest_of a (rest ++ x) k k s -> rest ++ S = q -> soutcome S s.
Proof using Y Gm Gr Lim Lq Ho.
  intros Sx Sm Bx El Eq Nq Hp Eh Rd Xh M R E. assert (Gl : Forall good_hline (rp_lines r)) by apply Gr. rewrite El in Gl. apply Forall_app in Gl as [Gl1 Gl].
  destruct S as [|y0 y].
  - rewrite app_nil_r in E. subst q. assert (Eb : ends_block ls2 x).
    { destruct Hp as [Hp | Hp]; [|rewrite (Bx Hp)]; [left; split; [exact Hp|right; exact Sm]|]. destruct ls2; [right; auto|left; split; [discriminate|]]. right. split; intros; discriminate. }
    destruct (rs_headers e C s a ls2 _ p rest x k i t Gl Eb M (gy_hpc _ _ _ _ Rd) (gy_prog _ _ _ _ Rd) R Nq Eq) as (s1 & H1 & R1 & Sk & M1). apply (soutcome_next _ _ _ H1).
    assert (Rd1 : gready t0 r (rp_lines r) (add_headers SResp (map ph_of ls2) t)) by (rewrite El; now apply gready_more).
    rewrite <- (add_headers_h2 (map ph_of ls2)) in Xh.
    destruct (ss_determine e C s1 a r m t0 _ rest x (k + blen rest) k i _ Y Gr Gm (proj1 Ho) Lq M1 R1 eq_refl Sk Rd1 Xh) as (s2 & H2 & U & T2 & X2 & O2).
    right. split; [reflexivity|]. exists s2. split; [exists 1%nat; now apply LoopsLast|]. split; [exact U|]. split; [exists (sw_tx e (add_headers SResp (map ph_of ls2) t)); split; [exact X2|apply (switched_of e m r t0); [exact Gr|apply Ho|exact Rd1|exact Xh]]|]. split; [exact O2|].
    exists ((rline_events i ++ map (ev_rheader i) hs) ++ [ev_rheader i rest; mk_ev HResponseHeaders i PlNone]). split; [|rewrite tr_of_app; exact T2].
    exists (hs ++ [rest]). split; [rewrite concat_app, Eh, El; cbn [concat]; rewrite app_nil_r, <- app_assoc, Eq; unfold block_text; now rewrite map_app, concat_app, <- app_assoc|].
    rewrite map_app. cbn [map]. now rewrite <- !app_assoc.
  - rewrite Sx, app_nil_r in R by discriminate. left. split; [discriminate|]. rewrite <- E, app_assoc in Eq. destruct (rhead_cut ls2 (opt_text p ++ rest) (y0 :: y) Gl Eq) as (l1 & l2 & q' & -> & E3 & E4 & E5 & E6); [discriminate|].
    apply Forall_app in Gl as [Gl2 _].
    destruct (rs_headers_part e C s a l1 _ p rest q' k i _ _ Y Gl2 M (gy_hpc _ _ _ _ Rd) R E3 E5) as (s1 & H1 & M1).
    { etransitivity; [|exact Lim]. unfold head_text. rewrite El. unfold block_text in *. rewrite !map_app, !concat_app, <- !app_assoc.
      rewrite <- E4. unfold blen. rewrite !app_length. lia. }
    exists s1. split; [exact H1|].
    apply (sp_headers (ls1 ++ l1) l2 q' (y0 :: y) (add_headers SResp (map ph_of l1) t) (hs ++ [rest])); [now rewrite El, app_assoc|exact E4|discriminate| | | | |].
    + destruct E6 as [E6 | E6]; [now left|]. right. destruct Hp as [Hp | Hp]; [congruence|exact Hp].
    + rewrite concat_app, Eh. cbn [concat]. rewrite app_nil_r, <- app_assoc, E3. unfold block_text. now rewrite map_app, concat_app, <- app_assoc.
    + now apply gready_more.
    + now rewrite add_headers_h2.
    + rewrite (map_app (ev_rheader i)). cbn [map]. rewrite app_assoc, tr_of_app. exact M1.
Qed.
Lemma sfrom_line S x s a rest k cb p l : (S <> [] -> x = []) -> smooth x -> (rp_lines r = [] -> x = []) -> sclean S -> p ++ l = line_body r -> rmile StLine None p None i (started t0) (tr_of [ev_rstart i] tr) C s ->
  rest_of a (rest ++ x) k cb s -> rest ++ S = (l ++ [13; 10]) ++ safter -> soutcome S s.
Proof using Y Gm Gr Lim Lq Ho.
  intros Sx Sm Bx Cl El M R E. pose proof (proj1 (switch_status _ Gr)) as Gs.
  assert (Lim1 : blen (status_line_text r) <= c_field_limit (e_cfg e)) by (etransitivity; [|exact Lim]; unfold head_text, blen; rewrite app_length; lia).
  assert (Fin : forall tail, rest = (l ++ [13; 10]) ++ tail -> safter = tail ++ S -> soutcome S s).
  { intros tail -> Et. rewrite <- app_assoc in R. destruct (rs_line e C s a r _ p l (tail ++ x) k cb i _ Y Gs M R El Lim1) as (s1 & H1 & R1 & M1). apply (soutcome_next _ _ _ H1).
    eapply (sfrom_headers S x s1 a tail _ (lined r (started t0)) None safter [] (rp_lines r) [] Sx Sm Bx); [reflexivity|reflexivity|unfold safter; destruct (block_text _); discriminate| |reflexivity| | |exact M1|exact R1|].
    - destruct (rp_lines r); [now right|left; discriminate].
    - exact (gready_lined r t0 (reply_resp _ _ (proj2 Ho))).
    - exact h2_fresh.
    - now symmetry. }
  apply app_split in E as [(y & E1 & E2) | (y & E1 & E2)]; [|apply (Fin y); assumption].
  destruct y as [|y0 y]; [rewrite app_nil_r in E1; apply (Fin []); [now rewrite app_nil_r|symmetry; exact E2]|].
  assert (Ns : S <> []) by (rewrite E2; discriminate). rewrite (Sx Ns), app_nil_r in R. left. split; [exact Ns|].
  symmetry in E1. destruct (cut_line _ _ _ E1) as (l' & El' & Ep); [discriminate|intro Z; apply Cl; rewrite E2, Z; reflexivity|]. subst l.
  destruct (rs_line_part e C s a _ p rest k cb i _ M R) as (s1 & H1 & M1).
  { rewrite app_assoc in El. apply (plain_part _ l' r Gs) in El. now apply Forall_app in El. }
  { etransitivity; [|exact Lim1]. rewrite status_line_body, <- El. unfold blen. rewrite !app_length. lia. }
  exists s1. split; [exact H1|]. rewrite E2, El'. apply (sp_line (p ++ rest) l'); [now rewrite <- app_assoc|assumption].
Qed.
Lemma sgoes c x S s : (S <> [] -> x = []) -> smooth x -> (rp_lines r = [] -> x = []) -> sclean S -> c <> [] -> spaused (c ++ S) s -> soutcome S (opened SResp (c ++ x) s).
Proof using Y Gm Gr Lim Ct Lq Ho.
  intros Sx Sm Bx Cl Nc P. remember (c ++ S) as X eqn:EX. pose proof (ropened_rest (c ++ x) s) as R. assert (Ncx : c ++ x <> []) by (destruct c; [congruence|discriminate]).
  destruct P as [s Q|p l s El M|ls1 ls2 p q t hs s El Eq Nq Hp Eh Rd Xh M].
  - apply (ropened_resting _ _ _ _ (c ++ x)) in Q.
    destruct (rs_start e i tr C _ (c ++ x) (c ++ x) 0 0 [] t0 m Y Q Ct (proj1 Ho) R Ncx) as (s1 & H1 & R1 & M1). apply (soutcome_next _ _ _ H1).
    apply (sfrom_line S x s1 (c ++ x) c 0 0 [] (line_body r) Sx Sm Bx Cl eq_refl M1 R1). rewrite <- EX. unfold safter, head_text. rewrite status_line_body. now rewrite <- !app_assoc.
  - apply (sfrom_line S x _ (c ++ x) c 0 0 p l Sx Sm Bx Cl El (proj1 (ropened_mile _ _ _ _ _ _ _ _ (c ++ x) _ M)) R). now symmetry.
  - apply (sfrom_headers S x _ (c ++ x) c 0 t (Some p) q ls1 ls2 hs Sx Sm Bx El Eq Nq Hp Eh Rd Xh (proj1 (ropened_mile _ _ _ _ _ _ _ _ (c ++ x) _ M)) R). now symmetry.
Qed.
Lemma sbufsum S s : spaused S s -> bufsum (s_resp s) <= c_field_limit (e_cfg e) /\ live_status (d_status (s_resp s)).
Proof using Lim.
  intro P. unfold bufsum. destruct P as [s Q|p l s El M|ls1 ls2 p q t hs s El Eq Nq Hp Eh Rd Xh M].
  1: rewrite (rr_buf _ _ _ _ _ Q), (rr_header _ _ _ _ _ Q); split; [change (blen []) with 0; lia|exact (rlive_live _ (rr_live _ _ _ _ _ Q))].
  all: rewrite (ProofsRStream.rm_buf _ _ _ _ _ _ _ _ _ M), (ProofsRStream.rm_header _ _ _ _ _ _ _ _ _ M); (split; [|exact (rlive_live _ (ProofsRStream.rm_live _ _ _ _ _ _ _ _ _ M))]).
  - rewrite N.add_0_r. etransitivity; [|apply Lim]. unfold head_text. rewrite status_line_body, <- El. unfold blen. rewrite !app_length. lia.
  - change (blen []) with 0. rewrite N.add_0_l. etransitivity; [|apply Lim].
    unfold head_text. rewrite El. unfold block_text in *. rewrite !map_app, !concat_app, <- !app_assoc, <- Eq. unfold blen. rewrite !app_length. lia.
Qed.
Lemma scalls w cs : w <> [] -> forall s, ~ In [] cs -> (forall a b, cs = a ++ b -> sclean (concat b ++ w)) -> spaused (concat cs ++ w) s ->
  exists s', run_ops (resps cs) e s = (ROk (more (resps cs)), s') /\ spaused w s'.
Proof using Y Gm Gr Lim Ct Lq Ho.
  intro Nw. induction cs as [|c cs IH]; intros s Ne Cl P; [exists s; split; [reflexivity|exact P]|].
  cbn [concat] in P. rewrite <- app_assoc in P. assert (Nc : c <> []) by (intros ->; apply Ne; now left).
  destruct (sbufsum _ _ P) as [B L]. destruct (sgoes c [] _ s ltac:(reflexivity) smooth_nil ltac:(reflexivity) (Cl [c] cs eq_refl) Nc P) as [(_ & s1 & R1 & P1) | (Z & _)]; [|apply app_eq_nil in Z as [_ Z]; congruence].
  rewrite app_nil_r in R1. apply (rruns_data_call e c s s1 Nc B L) in R1. destruct (IH s1) as (s2 & R2 & P2); [intro Z; apply Ne; now right| |exact P1|].
  - intros a b ->. apply (Cl (c :: a) b). reflexivity.
  - exists s2. split; [|exact P2]. unfold resps in *. cbn [map run_ops]. unfold bind at 1. cbn [run_op]. unfold bind at 1. rewrite R1. unfold ret at 1. unfold bind at 1. rewrite R2. reflexivity.
Qed.
Lemma loops_resp_call c s s' x n : c <> [] -> bufsum (s_resp s) <= c_field_limit (e_cfg e) -> live_status (d_status (s_resp s)) -> loops SResp e n (opened SResp c s) x s' ->
  data_call SResp (pd_slice c) e s = (ROk x, s').
Proof using Lim.
  intros Nc B L R. assert (Lc : 0 < blen c) by (destruct c; [congruence|unfold blen; cbn; lia]).
  destruct (data_call_ok e SResp (pd_slice c) s) as (x' & s2 & H & _); [split; [reflexivity|cbn; congruence]|exact B|intro Z; exfalso; exact (live_not_closed _ L Z)|].
  rewrite H. rewrite data_call_bytes in H by (assumption). apply loops_fuel in R.
  pose proof (data_loop_more SResp e n (opened SResp c s)) as D1. rewrite R in D1. specialize (D1 ltac:(discriminate) (loop_fuel SResp (opened SResp c s))).
  pose proof (data_loop_more SResp e (loop_fuel SResp (opened SResp c s)) (opened SResp c s)) as D2. rewrite H in D2. specialize (D2 ltac:(discriminate) n). rewrite Nat.add_comm in D2. congruence.
Qed.
Lemma switches cs w x s : concat cs ++ w = head_text r -> ~ In [] cs -> w <> [] -> (forall a b, cs = a ++ b -> sclean (concat b ++ w)) -> smooth x -> (rp_lines r = [] -> x = []) -> rresting [] i tr C s ->
  exists s', run_ops (resps cs ++ [OpResp (pd_slice (w ++ x))]) e s = (ROk (more (resps cs) ++ [Some SsTunnel]), s') /\ over_to s'.
Proof using Y Gm Gr Lim Ct Lq Ho.
  intros Ec Ne Nw Cl Sm Bx Q. destruct (scalls w cs Nw s Ne Cl) as (s1 & H1 & P1); [rewrite Ec; constructor; exact Q|].
  destruct (sbufsum _ _ P1) as [B L]. rewrite <- (app_nil_r w) in P1. destruct (sgoes w x [] s1) as [(Z & _) | (_ & s2 & (n & R2) & O2)]; try assumption; try congruence.
  { unfold sclean. discriminate. }
  exists s2. split; [|exact O2]. apply loops_resp_call in R2; [|destruct w; [congruence|discriminate]|exact B|exact L].
  eapply run_ops_app; [exact H1|]. cbn [run_ops]. unfold bind at 1. cbn [run_op]. unfold bind at 1. rewrite R2. reflexivity.
Qed.
End Switch.
(** * After a conversation *)
Lemma upgrade_runs e n tr T z s u : yes e -> level n tr T z s -> good_upgrade u ->
  blen (request_text (m_req (ug_request u))) <= c_field_limit (e_cfg e) -> blen (block_text (trailer_of (m_content (ug_request u)))) + 2 <= c_field_limit (e_cfg e) ->
  blen (head_text (ug_reply u)) <= c_field_limit (e_cfg e) -> n + 1 < 2 ^ 64 -> N.of_nat z + 1 <= c_max_tx (e_cfg e) ->
  exists s' es1 es2, run_ops (upgrade_ops u) e s = (ROk (upgrade_calls u), s') /\
    stream_events (e_cfg e) n [ug_request u] es1 /\ switch_events n (ug_reply u) es2 /\ s_trace s' = tr_of (es1 ++ es2) tr /\ tunnel_in_use s' /\
    (forall j, j < n -> tx_get j (s_txs s') = T j) /\ exists t, tx_get n (s_txs s') = Some t /\ asked (ug_request u) t /\ switched (ug_reply u) t.
Proof.
  intros Y [Lq (P1 & P2 & P3 & P4 & P5 & P6) Lf Lk] (Gm & Gr & Eu & Nu & Cu & Ed & Nd & Ne & Cd & Sx & Bx) L1 L2 L3 Ix Sz.
  destruct u as [m r up down w x]. cbn [ug_request ug_reply ug_up ug_down ug_end ug_extra] in *. unfold upgrade_ops, upgrade_calls. cbn [ug_up ug_down ug_end ug_extra].
  assert (R1 : room e n (mk_ctx T (n, s_resp s, false) z) [m]).
  { constructor; cbn [cx_rest cx_size cx_table fst snd length]; try assumption.
    - constructor; [exact Gm|constructor].
    - constructor; [split; assumption|constructor].
    - intro Z. rewrite Z in P3. destruct P3; discriminate. }
  pose proof (@pa_idle (e_cfg e) n _ tr [m] s Lq) as P. rewrite <- Eu, <- (app_nil_r (concat _)) in P.
  destruct (stream_calls e up Y n _ tr [m] [] s R1 Nu) as (s1 & done & ms' & i1 & C1 & tr1 & H1 & E1 & T1 & Q1); [|exact P|].
  { intros a b Eab _ before y after z0 Em. exact (Cu a b before y after z0 Eab Em). }
  apply paused_end in Q1 as [-> Q1]. rewrite app_nil_r in E1. subst done. destruct (told_facts _ _ _ _ _ _ _ T1) as (Ei & (es1 & -> & Se) & Tx & Ti). destruct (told_more _ _ _ _ _ _ _ T1) as (Tm & Tr & Ts). cbn [cx_rest cx_size cx_table] in *. clear P R1.
  pose proof (keys_run (map (fun c => OpReq (pd_slice c)) up) e s Lk) as K1. rewrite H1 in K1. cbn [snd] in K1. subst i1. change (N.of_nat (length [m])) with 1 in *.
  destruct Q1 as [D1 D2 D3 D4 D5 D6 D7 D8 D9 D10 D11]. rewrite Tr in D10. unfold outside in D10. injection D10 as O1 O2 O3.
  set (C2 := mk_ctx (fun j => tx_get j (s_txs s1)) (n + 1, s_req s1, false) (length (s_txs s1))).
  assert (Qr : rresting [] n (tr_of es1 tr) C2 s1) by (constructor; rewrite ?O2; try assumption; [left; split; [reflexivity|split; [exact K1|apply Nat.le_refl]]|unfold r_outside, C2; cbn [cx_rest]; congruence|reflexivity]).
  destruct (Tx 0%nat m eq_refl) as (t & Ht & Ho). rewrite N.add_0_r in Ht.
  assert (Ct : cx_table C2 n = Some t) by (unfold C2; cbn [cx_table]; rewrite D11 by lia; exact Ht).
  assert (Lq2 : live_status (d_status (snd (fst (cx_rest C2))))) by exact D3.
  destruct (switches e m r n C2 (tr_of es1 tr) t Y Gm Gr L3 Ct Lq2 Ho down w x s1 Ed Nd Ne Cd Sx Bx Qr) as (s2 & H2 & U & (t' & Ht' & As & Sw) & O' & es2 & Ev & Tr2).
  exists s2, es1, es2. split; [|split; [exact Se|split; [exact Ev|split; [now rewrite tr_of_app|split; [exact U|split]]]]].
  - erewrite run_ops_app; [|exact H1|exact H2]. unfold more, reqs. rewrite !map_app, map_map, <- app_assoc. reflexivity.
  - intros j Hj. rewrite O' by lia. unfold C2. cbn [cx_table]. rewrite D11 by lia. now apply Ti.
  - exists t'. auto.
Qed.
Definition upgraded_run (e : env) (before : list round) (u : upgrade) (later : list op) : Prop :=
  exists s es1 es2 es3, history e (conversation before ++ upgrade_ops u ++ later) = (ROk (all_calls before ++ upgrade_calls u ++ map (fun _ => Some SsTunnel) later), s) /\
    events s = es1 ++ es2 ++ es3 /\ conversation_events (e_cfg e) 0 before es1 /\
    stream_events (e_cfg e) (N.of_nat (length (exchanges before))) [ug_request u] es2 /\ switch_events (N.of_nat (length (exchanges before))) (ug_reply u) es3 /\
    done_with e s 0 before /\
    exists t, tx_get (N.of_nat (length (exchanges before))) (s_txs s) = Some t /\ asked (ug_request u) t /\ switched (ug_reply u) t.
Lemma upgraded_run_yes e before u later : yes e -> Forall good_round before -> good_upgrade u -> upgrade_fits e before u -> Forall traffic later -> upgraded_run e before u later.
Proof.
  intros Y G Gu ((F1 & F2 & F3) & B1 & B2 & B3 & B4 & B5) Tf. destruct (open_level e) as (s0 & H0 & L0).
  destruct (talk_runs_size e before Y 0 [] _ 0%nat s0 L0 G F1 F2 F3) as (s1 & T1 & z & es1 & H1 & Ce & L & _ & X & Z). rewrite N.add_0_l in L.
  destruct (upgrade_runs e _ _ _ _ _ u Y L Gu B1 B2 B3) as (s2 & es2 & es3 & H2 & S2 & S3 & Tr2 & U & O2 & t & Ht & As & Sw); [lia|rewrite Z; destruct (c_auto_destroy _); lia|].
  destruct (traffic_runs e 200 ltac:(lia) later s2 Tf U) as (s3 & H3 & Tr3 & X3).
  exists s3, es1, es2, es3. split; [|split; [|split; [exact Ce|split; [exact S2|split; [exact S3|split]]]]].
  - unfold history, conversation, all_calls. cbn [run_ops app map]. unfold bind at 1. rewrite H0. unfold bind at 1. erewrite run_ops_app; [|exact H1|erewrite run_ops_app; [reflexivity|exact H2|exact H3]]. reflexivity.
  - apply events_tr_of. rewrite Tr3, Tr2, <- tr_of_app. reflexivity.
  - intros k m r Hk. rewrite N.add_0_l, X3. assert (k < length (exchanges before))%nat by (apply nth_error_Some; congruence). rewrite O2 by lia. specialize (X k (m, r) Hk). rewrite N.add_0_l in X. exact X.
  - exists t. rewrite X3. auto.
Qed.
Lemma upgrade_run e before u later : accepting e -> Forall good_round before -> good_upgrade u -> upgrade_fits e before u -> Forall traffic later -> upgraded_run e before u later.
Proof.
  intros A G Gu F Tf. destruct (upgraded_run_yes (mute e) before u later (yes_mute e) G Gu F Tf) as (s & es1 & es2 & es3 & H & Ee & Ce & S2 & S3 & D & t & Ht & As & Sw).
  match type of H with history _ ?l = _ => destruct (history_mute e l A) as [H1 H2] end. rewrite H in H1, H2. cbn [fst snd] in H1, H2. apply similar_txs in H2 as [H2 H3].
  match type of H with history _ ?l = _ => exists (snd (history e l)) end. exists es1, es2, es3. split; [rewrite <- H1; apply surjective_pairing|]. rewrite H3. split; [exact Ee|]. split; [now apply conversation_events_mute|]. split; [now apply stream_events_mute|]. split; [exact S3|].
  split; [eapply done_mute; [exact H2|exact D]|]. exists t. rewrite H2. auto.
Qed.
