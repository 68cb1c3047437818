(** Bodies and trailers of well-formed responses: from step to step. *)
From Verif Require Import Base Spec SpecTx SpecMsg SpecResp ModelUtil ModelParsers ModelHeaders ModelState ModelTx ModelConn SpecConn ProofsBase ProofsParsers ProofsHeaders ProofsTx ProofsConn ProofsCore ProofsLoop ProofsHist ProofsEval ProofsBody ProofsHead ProofsFrame ProofsStream ProofsChunk ProofsRStream.

Definition rpiece (i : N) (d : payload) : list (event * status) := [(mk_ev HResponseBody i d, SOk); (mk_ev HResponseBodyTx i d, SOk)].
(** * Bodies of a known length *)
Lemma rs_body_wait e C s a tr k cb i t n : rmile StClKnown None [] None i t tr C s -> d_left (s_resp s) = Some n -> rest_of a [] k cb s ->
  exists s', rruns e s s' /\ rmile StClKnown None [] None i t tr C s' /\ d_left (s_resp s') = Some n.
Proof.
  intros M L R. assert (H : handle_state SResp e s = (RErr SData, s)).
  { unfold handle_state, by_side, handle_response_state. unfold bind at 1, get_d at 1. cbn [s_dir]. rewrite (rm_state _ _ _ _ _ _ _ _ _ M). unfold response_body_identity_cl_known.
    unfold bind at 1, input at 1. unfold bind at 1, get_d at 1. cbn [s_dir]. rewrite (rlive_closed_eqb _ (rm_live _ _ _ _ _ _ _ _ _ M)), L. rewrite (rest_pd_len _ _ _ _ _ R). change (blen []) with 0. rewrite N.min_0_l. reflexivity. }
  rewrite <- L. eapply rpause_plain in H; [|left; reflexivity|exact (rest_no_gap _ _ _ _ _ R)|exact M]. destruct H as (s' & H1 & H2 & H3 & _). exists s'. auto.
Qed.
Lemma known_eval e s t n a c tail k cb : yes e -> tx_get (s_pidx s) (s_txs s) = Some t -> t_cep (x_resp t) = CeNone -> rlive (d_status (s_resp s)) ->
  d_state (s_resp s) = StClKnown -> d_left (s_resp s) = Some n -> rest_of a (c ++ tail) k cb s -> 0 < blen c -> blen c = n \/ (blen c < n /\ tail = []) ->
  handle_response_state e s = (if 0 <? n - blen c then fail SData else set_state SResp StFinalize ;; body_data SResp None) e (ate SResp k c (n - blen c) t s).
Proof.
  intros Y B C St D1 D3 I L Ln. unfold handle_response_state. unfold bind at 1, get_d at 1. cbn [s_dir]. rewrite D1.
  unfold response_body_identity_cl_known. unfold bind at 1, input at 1. unfold bind at 1, get_d at 1. cbn [s_dir]. rewrite (rlive_closed_eqb _ St), D3.
  rewrite (rest_pd_len _ _ _ _ _ I). replace (N.min (blen (c ++ tail)) n) with (blen c).
  2:{ unfold blen in *. rewrite app_length. destruct Ln as [Ln | [Ln ->]]; [lia|cbn [length]; lia]. }
  destruct (blen c =? 0) eqn:E0; [lia|]. unfold bind at 1. rewrite (rest_no_gap _ _ _ _ _ I). unfold bind at 1. rewrite (slice_to_front a c tail k cb) by exact I.
  rewrite (body_data_plain SResp e s t (Some c) Y) by assumption.
  cbv zeta. destruct c as [|x c]; [cbn in L; lia|]. set (c0 := x :: c) in *. cbv iota beta.
  set (F := if 0 <? n - blen c0 then _ else _). clearbody F.
  unfold ate. destruct s as [rq rs oe cc ci ri pi txs cf si so tr lg inp]. destruct rs as [d1 d2 d3 d4 d5 d6 d7 d8 d9 d10]. destruct I as (I & _ & _). cbn in I, D1, D3, B. subst.
  unfold body_hooks, push. ev. reflexivity.
Qed.
Lemma ate_rmile C k c m t tr i s : rmile StClKnown None [] None i t tr C s ->
  rmile StClKnown None [] None i (grow SResp (blen c) t) (rpiece i (PlData c) ++ tr) C (ate SResp k c m t s).
Proof.
  intros [M1 M2 M3 M4 M5 M6 M7 M8 M9 M10 M11 M12]. unfold ate, body_hooks, push. cbn [s_idx]. rewrite M7. constructor; cbn; try assumption; try reflexivity.
  - apply (tx_get_set_eq _ _ _ _ M8).
  - now rewrite M9.
  - intros j Hj. rewrite tx_get_set_other by congruence. now apply M11.
  - now apply stocked_set.
Qed.
Lemma rs_body_part e C s a tr c k cb i t n : yes e -> rmile StClKnown None [] None i t tr C s -> t_cep (x_resp t) = CeNone -> d_left (s_resp s) = Some n -> rest_of a c k cb s ->
  0 < blen c < n ->
  exists s', rruns e s s' /\ rmile StClKnown None [] None i (grow SResp (blen c) t) (rpiece i (PlData c) ++ tr) C s' /\ d_left (s_resp s') = Some (n - blen c).
Proof.
  intros Y M Ce L R Lc. pose proof (ate_rmile C k c (n - blen c) t tr i s M) as M'.
  assert (H : handle_state SResp e s = (RErr SData, ate SResp k c (n - blen c) t s)).
  { pose proof (rm_tx _ _ _ _ _ _ _ _ _ M) as M8. rewrite <- (rm_idx _ _ _ _ _ _ _ _ _ M) in M8. rewrite <- (app_nil_r c) in R. unfold handle_state, by_side.
    rewrite (known_eval e s t n a c [] k cb Y M8 Ce (rm_live _ _ _ _ _ _ _ _ _ M) (rm_state _ _ _ _ _ _ _ _ _ M) L R); [|lia|right; split; [lia|reflexivity]].
    destruct (0 <? n - blen c) eqn:E; [reflexivity|lia]. }
  eapply rpause_plain in H; [|left; reflexivity|exact (rest_no_gap _ _ _ _ _ R)|exact M']. destruct H as (s' & H1 & H2 & H3 & _). exists s'. auto.
Qed.
Lemma rs_body_last e C s a tr c tail k cb i t : yes e -> rmile StClKnown None [] None i t tr C s -> t_cep (x_resp t) = CeNone -> d_left (s_resp s) = Some (blen c) -> rest_of a (c ++ tail) k cb s ->
  c <> [] ->
  exists s', step SResp e s = (ROk None, s') /\ rest_of a tail (k + blen c) cb s' /\
    rmile StFinalize None [] None i (grow SResp 0 (grow SResp (blen c) t)) (rpiece i (PlData c) ++ tr) C s'.
Proof.
  intros Y M Ce L R Nc. pose proof (ate_rmile C k c (blen c - blen c) t tr i s M) as M'.
  assert (I2 : s_input (ate SResp k c (blen c - blen c) t s) = mk_pdata (Some a) None (k + blen c) cb) by (destruct R as (I & _ & _); cbn; now rewrite I).
  assert (H : handle_state SResp e s = (set_state SResp StFinalize ;; body_data SResp None) e (ate SResp k c (blen c - blen c) t s)).
  { pose proof (rm_tx _ _ _ _ _ _ _ _ _ M) as M8. rewrite <- (rm_idx _ _ _ _ _ _ _ _ _ M) in M8. unfold handle_state, by_side.
    rewrite (known_eval e s t (blen c) a c tail k cb Y M8 Ce (rm_live _ _ _ _ _ _ _ _ _ M) (rm_state _ _ _ _ _ _ _ _ _ M) L R); [|destruct c; [congruence|unfold blen; cbn; lia]|now left].
    rewrite N.sub_diag. reflexivity. }
  destruct (rest_skip _ _ _ _ _ _ R) as [L1 L2].
  set (s1 := ate SResp k c (blen c - blen c) t s) in *. clearbody s1. clear M. destruct M' as [M1 M2 M3 M4 M5 M6 M7 M8 M9 M10 M11 M12].
  unfold bind at 1, set_state, upd_d, modify in H. rewrite (body_data_plain SResp e _ (grow SResp (blen c) t) None Y) in H by (cbn; rewrite ?M7; assumption). cbv zeta iota in H.
  apply (step_next SResp) in H; [|exact (rest_no_gap _ _ _ _ _ R)|exact (rlive_not_tunnel _ M3)|discriminate].
  eexists. split; [exact H|]. split; [split; [exact I2|split; assumption]|]. constructor; cbn; try assumption; try reflexivity; rewrite ?M7.
  - apply (tx_get_set_eq _ _ _ _ M8).
  - intros j Hj. rewrite tx_get_set_other by congruence. now apply M11.
  - now apply stocked_set.
Qed.

(** * Chunked bodies *)
Definition rspent (n : N) (t : tx) : tx := upd_dir SResp (fun d => set_t_mlen (wadd (t_mlen d) n) d) t.
Lemma radd_mlen_eval n e s t : tx_get (s_pidx s) (s_txs s) = Some t -> add_mlen SResp n e s = (ROk tt, set_s_txs (tx_set (s_pidx s) (rspent n t) (s_txs s)) s).
Proof. intro H. unfold add_mlen, mod_txd. now rewrite (mod_tx_get SResp _ _ _ _ H). Qed.
Lemma size_not_ctl c : good_chunk c -> is_chunked_ctl_line (size_line c) = false.
Proof.
  intro G. destruct (size_line_head c G) as (x & l & -> & Hx). unfold is_chunked_ctl_line. cbn [forallb]. replace (is_chunked_ctl_char x) with false; [reflexivity|].
  symmetry. revert Hx. unfold hexdigit, is_chunked_ctl_char. lia.
Qed.
Lemma rlength_eval e C s a tr c tail k cb i t : rmile StChunkedLength None [] None i t tr C s -> good_chunk c -> rest_of a (size_line c ++ tail) k cb s ->
  exists l, handle_response_state e s =
    (if blen (ck_data c) =? 0 then set_state SResp StHeaders ;; set_progress SResp PTrailer else set_state SResp StChunkedData) e
      (set_s_logs l (set_s_txs (tx_set i (rspent (blen (size_line c)) t) (s_txs s)) (set_s_input (mk_pdata (Some a) None (k + blen (size_line c)) cb)
        (set_s_resp (set_d_chunk (Some (blen (ck_data c))) (set_d_consumed (k + blen (size_line c)) (s_resp s))) s)))).
Proof.
  intros [M1 M2 M3 M4 M5 M6 M7 M8 M9 M10 M11 M12] G R. rewrite <- M7 in M8.
  unfold handle_response_state. unfold bind at 1, get_d at 1. cbn [s_dir]. rewrite M1. unfold response_body_chunked_length. unfold bind at 1, slice at 1. rewrite (rest_slice _ _ _ _ _ R).
  destruct (size_line_shape c G) as (l & El & Hl). destruct (size_line_value c G) as (ext & Ev). pose proof (size_not_ctl c G) as Nb.
  cbn [response_chunked_length_loop]. unfold bind at 1. rewrite (need_tx_get SResp _ _ t) by exact M8. replace (take_till_lf (size_line c ++ tail)) with (POk tail (size_line c)) by (symmetry; apply take_till_lf_spec; split; [reflexivity|eauto]).
  clear M9 M10 M11 M12. set (sl := size_line c) in *. clearbody sl. clear El. destruct R as (I & _ & _).
  destruct s as [rq rs oe cc ci ri pi txs cf si so tr' lg inp]. destruct rs as [d1 d2 d3 d4 d5 d6 d7 d8 d9 d10]. cbn in M1, M2, M3, M4, M5, M6, M7, M8, I. subst.
  unfold consume, set_input. unfold bind at 1, bind at 1, input at 1. unfold bind at 1, modify at 1. unfold upd_d at 1, modify at 1.
  unfold bind at 1, check_limit_if_buffered. unfold bind at 1, get_d at 1. cbn [s_dir s_resp d_buf set_s_input set_s_resp set_s_dir set_d_consumed is_nil negb when].
  unfold ret at 1. rewrite Nb. unfold bind at 1, get_d at 1. match goal with |- context [parse_chunked_length ?z] => change z with sl end. match goal with |- context [add_mlen SResp (blen ?z)] => change z with sl end. rewrite Ev. unfold bind at 1. rewrite (radd_mlen_eval _ _ _ t) by exact M8.
  set (F := if blen (ck_data c) =? 0 then _ else _). clearbody F. destruct ext; ev; unfold log; ev; [destruct (LvWarning <=? _)|]; eexists; reflexivity.
Qed.
Lemma rs_length e C s a tr c tail k cb i t : rmile StChunkedLength None [] None i t tr C s -> good_chunk c -> ck_data c <> [] -> rest_of a (size_line c ++ tail) k cb s ->
  exists s', step SResp e s = (ROk None, s') /\ rest_of a tail (k + blen (size_line c)) cb s' /\
    rmile StChunkedData None [] None i (rspent (blen (size_line c)) t) tr C s' /\ d_chunk (s_resp s') = Some (blen (ck_data c)).
Proof.
  intros M G Nd R. destruct (rlength_eval e C s a tr c tail k cb i t M G R) as [l H]. destruct M as [M1 M2 M3 M4 M5 M6 M7 M8 M9 M10 M11 M12].
  destruct (blen (ck_data c) =? 0) eqn:E; [exfalso; apply N.eqb_eq in E; destruct (ck_data c); [congruence|discriminate E]|]. clear E.
  destruct (rest_skip _ _ _ _ _ _ R) as [L1 L2].
  change (handle_response_state e s) with (handle_state SResp e s) in H.
  apply (step_next SResp) in H; [|exact (rest_no_gap _ _ _ _ _ R)|exact (rlive_not_tunnel _ M3)|discriminate].
  eexists. split; [exact H|]. split; [split; [reflexivity|split; assumption]|]. split; [|reflexivity]. constructor; cbn; try assumption; try reflexivity.
  - apply (tx_get_set_eq _ _ _ _ M8).
  - intros j Hj. rewrite tx_get_set_other by congruence. now apply M11.
  - now apply stocked_set.
Qed.
Lemma rs_length_last e C s a tr c tail k cb i t : rmile StChunkedLength None [] None i t tr C s -> good_chunk c -> ck_data c = [] -> rest_of a (size_line c ++ tail) k cb s ->
  exists s', step SResp e s = (ROk None, s') /\ rest_of a tail (k + blen (size_line c)) (k + blen (size_line c)) s' /\
    rmile StHeaders (Some HResponseTrailerData) [] None i (upd_dir SResp (set_t_prog PTrailer) (rspent (blen (size_line c)) t)) tr C s'.
Proof.
  intros M G Nd R. destruct (rlength_eval e C s a tr c tail k cb i t M G R) as [l H]. destruct M as [M1 M2 M3 M4 M5 M6 M7 M8 M9 M10 M11 M12].
  rewrite Nd in H. change (blen [] =? 0) with true in H. cbv iota in H. destruct (rest_skip _ _ _ _ _ _ R) as [L1 L2]. pose proof (rest_no_gap _ _ _ _ _ R) as Gp.
  set (t1 := rspent _ t) in *. set (n := k + _) in *. set (t2 := upd_dir SResp (set_t_prog PTrailer) t1).
  assert (H2 : handle_state SResp e s = (ROk tt, set_s_logs l (set_s_txs (tx_set i t2 (s_txs s)) (set_s_input (mk_pdata (Some a) None n cb)
        (set_s_resp (set_d_state StHeaders (set_d_chunk (Some (blen (@nil N))) (set_d_consumed n (s_resp s)))) s))))).
  { unfold handle_state, by_side. rewrite H. unfold bind at 1, set_state, upd_d, modify. unfold set_progress, mod_txd. rewrite (mod_tx_get SResp _ _ _ t1) by (cbn; rewrite M7; apply (tx_get_set_eq _ _ _ _ M8)).
    destruct s as [rq rs oe cc ci ri pi txs cf si so tr' lg inp]. destruct rs as [d1 d2 d3 d4 d5 d6 d7 d8 d9 d10]. cbn in *. subst. rewrite tx_set_set. reflexivity. }
  eapply step_enter in H2; [|exact Gp|exact M3|reflexivity|cbn; rewrite M2; discriminate|cbn; rewrite M7; apply (tx_get_set_eq _ _ _ _ M8)|reflexivity|right; split; reflexivity].
  eexists. split; [exact H2|]. split; [split; [reflexivity|split; assumption]|]. constructor; cbn; try assumption; try reflexivity.
  - apply (tx_get_set_eq _ _ _ _ M8).
  - intros j Hj. rewrite tx_get_set_other by congruence. now apply M11.
  - now apply stocked_set.
Qed.
Lemma rs_length_wait e C s a tr k cb i t : rmile StChunkedLength None [] None i t tr C s -> rest_of a [] k cb s ->
  exists s', rruns e s s' /\ rmile StChunkedLength None [] None i t tr C s'.
Proof.
  intros M R. destruct M as [M1 M2 M3 M4 M5 M6 M7 M8 M9 M10 M11 M12].
  assert (H : handle_state SResp e s = absent_lf SResp e s).
  { unfold handle_state, by_side, handle_response_state. unfold bind at 1, get_d at 1. cbn [s_dir]. rewrite M1. unfold response_body_chunked_length. unfold bind at 1, slice at 1. rewrite (rest_slice _ _ _ _ _ R).
    cbn [response_chunked_length_loop length]. unfold bind at 1. rewrite (need_tx_get SResp _ _ t) by (cbn [s_idx]; rewrite M7; exact M8). reflexivity. }
  rewrite (rabsent_lf_eval e s a [] k cb R M6) in H by (rewrite M5; change (blen []) with 0; lia).
  eapply (rpause_plain e _ StChunkedLength i t tr C) in H; [|right; reflexivity|exact (rest_no_gap _ _ _ _ _ R)|].
  - destruct H as (s' & H1 & H2 & _). exists s'. split; [exact H1|exact H2].
  - constructor; cbn; try assumption; try reflexivity. now rewrite M5.
Qed.
(** ** The data of a chunk *)
Lemma rs_chunk_wait e C s a tr k cb i t n : rmile StChunkedData None [] None i t tr C s -> d_chunk (s_resp s) = Some n -> rest_of a [] k cb s ->
  exists s', rruns e s s' /\ rmile StChunkedData None [] None i t tr C s' /\ d_chunk (s_resp s') = Some n.
Proof.
  intros M L R. assert (H : handle_state SResp e s = (RErr SData, s)).
  { unfold handle_state, by_side, handle_response_state. unfold bind at 1, get_d at 1. cbn [s_dir]. rewrite (rm_state _ _ _ _ _ _ _ _ _ M). unfold body_chunked_data.
    unfold bind at 1, input at 1. rewrite (rest_pd_len _ _ _ _ _ R). change (blen []) with 0. unfold bind at 1, get_d at 1. rewrite N.min_0_l. reflexivity. }
  rewrite <- L. eapply rpause_plain in H; [|left; reflexivity|exact (rest_no_gap _ _ _ _ _ R)|exact M]. destruct H as (s' & H1 & H2 & _ & H3). exists s'. auto.
Qed.
Definition rate_chunk (k : N) (c : bytes) (m : N) (t : tx) (s : st) : st :=
  let s1 := set_s_txs (tx_set (s_pidx s) (grow SResp (blen c) t) (s_txs s)) s in
  let s2 := body_hooks SResp (s_pidx s) (PlData c) s1 in
  let s3 := set_s_input (set_pd_pos (k + blen c) (s_input s)) s2 in
  set_s_resp (set_d_chunk (Some m) (set_d_consumed (k + blen c) (s_resp s))) s3.
Lemma rchunk_eval e s t n a c tail k cb : yes e -> tx_get (s_pidx s) (s_txs s) = Some t -> t_cep (x_resp t) = CeNone ->
  d_state (s_resp s) = StChunkedData -> d_chunk (s_resp s) = Some n -> rest_of a (c ++ tail) k cb s -> 0 < blen c -> blen c = n \/ (blen c < n /\ tail = []) ->
  handle_response_state e s = (if n - blen c =? 0 then set_state SResp StChunkedDataEnd else fail SData) e (rate_chunk k c (n - blen c) t s).
Proof.
  intros Y B C D1 D3 I L Ln. unfold handle_response_state. unfold bind at 1, get_d at 1. cbn [s_dir]. rewrite D1.
  unfold body_chunked_data. unfold bind at 1, input at 1. unfold bind at 1, get_d at 1. cbn [s_dir]. rewrite D3.
  rewrite (rest_pd_len _ _ _ _ _ I). replace (N.min (blen (c ++ tail)) n) with (blen c).
  2:{ unfold blen in *. rewrite app_length. destruct Ln as [Ln | [Ln ->]]; [lia|cbn [length]; lia]. }
  destruct (blen c =? 0) eqn:E0; [lia|]. unfold bind at 1. rewrite (slice_to_front a c tail k cb) by exact I.
  unfold bind at 1. rewrite (body_data_plain SResp e s t (Some c) Y) by assumption.
  cbv zeta. destruct c as [|x c]; [cbn in L; lia|]. set (c0 := x :: c) in *. cbv iota beta.
  unfold rate_chunk. destruct s as [rq rs oe cc ci ri pi txs cf si so tr lg inp]. destruct rs as [d1 d2 d3 d4 d5 d6 d7 d8 d9 d10]. destruct I as (I & _ & _). cbn in I, D1, D3, B. subst.
  unfold body_hooks, push. ev. destruct (n - blen c0 =? 0); reflexivity.
Qed.
Lemma rate_chunk_mile C k c m t tr i s : rmile StChunkedData None [] None i t tr C s ->
  rmile StChunkedData None [] None i (grow SResp (blen c) t) (rpiece i (PlData c) ++ tr) C (rate_chunk k c m t s).
Proof.
  intros [M1 M2 M3 M4 M5 M6 M7 M8 M9 M10 M11 M12]. unfold rate_chunk, body_hooks, push. rewrite M7. constructor; cbn; try assumption; try reflexivity.
  - apply (tx_get_set_eq _ _ _ _ M8).
  - now rewrite M9.
  - intros j Hj. rewrite tx_get_set_other by congruence. now apply M11.
  - now apply stocked_set.
Qed.
Lemma rs_chunk_part e C s a tr c k cb i t n : yes e -> rmile StChunkedData None [] None i t tr C s -> t_cep (x_resp t) = CeNone -> d_chunk (s_resp s) = Some n -> rest_of a c k cb s ->
  0 < blen c < n ->
  exists s', rruns e s s' /\ rmile StChunkedData None [] None i (grow SResp (blen c) t) (rpiece i (PlData c) ++ tr) C s' /\ d_chunk (s_resp s') = Some (n - blen c).
Proof.
  intros Y M Ce L R Lc. pose proof (rate_chunk_mile C k c (n - blen c) t tr i s M) as M'.
  assert (H : handle_state SResp e s = (RErr SData, rate_chunk k c (n - blen c) t s)).
  { pose proof (rm_tx _ _ _ _ _ _ _ _ _ M) as M8. rewrite <- (rm_idx _ _ _ _ _ _ _ _ _ M) in M8. rewrite <- (app_nil_r c) in R. unfold handle_state, by_side.
    rewrite (rchunk_eval e s t n a c [] k cb Y M8 Ce (rm_state _ _ _ _ _ _ _ _ _ M) L R); [|lia|right; split; [lia|reflexivity]].
    destruct (n - blen c =? 0) eqn:E; [lia|reflexivity]. }
  eapply rpause_plain in H; [|left; reflexivity|exact (rest_no_gap _ _ _ _ _ R)|exact M']. destruct H as (s' & H1 & H2 & _ & H3). exists s'. auto.
Qed.
Lemma rs_chunk_last e C s a tr c tail k cb i t : yes e -> rmile StChunkedData None [] None i t tr C s -> t_cep (x_resp t) = CeNone -> d_chunk (s_resp s) = Some (blen c) -> rest_of a (c ++ tail) k cb s ->
  c <> [] ->
  exists s', step SResp e s = (ROk None, s') /\ rest_of a tail (k + blen c) cb s' /\
    rmile StChunkedDataEnd None [] None i (grow SResp (blen c) t) (rpiece i (PlData c) ++ tr) C s'.
Proof.
  intros Y M Ce L R Nc. pose proof (rate_chunk_mile C k c (blen c - blen c) t tr i s M) as M'.
  assert (H : handle_state SResp e s = (ROk tt, set_s_resp (set_d_state StChunkedDataEnd (s_resp (rate_chunk k c (blen c - blen c) t s))) (rate_chunk k c (blen c - blen c) t s))).
  { pose proof (rm_tx _ _ _ _ _ _ _ _ _ M) as M8. rewrite <- (rm_idx _ _ _ _ _ _ _ _ _ M) in M8. unfold handle_state, by_side.
    rewrite (rchunk_eval e s t (blen c) a c tail k cb Y M8 Ce (rm_state _ _ _ _ _ _ _ _ _ M) L R); [|destruct c; [congruence|unfold blen; cbn; lia]|now left].
    rewrite N.sub_diag. reflexivity. }
  destruct (rest_skip _ _ _ _ _ _ R) as [L1 L2].
  assert (I2 : s_input (rate_chunk k c (blen c - blen c) t s) = mk_pdata (Some a) None (k + blen c) cb) by (destruct R as (I & _ & _); cbn; now rewrite I).
  set (s1 := rate_chunk k c (blen c - blen c) t s) in *. clearbody s1. destruct M' as [M1 M2 M3 M4 M5 M6 M7 M8 M9 M10 M11 M12].
  apply (step_next SResp) in H; [|exact (rest_no_gap _ _ _ _ _ R)|exact (rlive_not_tunnel _ M3)|discriminate].
  eexists. split; [exact H|]. split; [split; [exact I2|split; assumption]|]. constructor; cbn; try assumption; try reflexivity.
Qed.
(** ** The line end after the data; what there is of it is consumed *)
Lemma rs_crlf_wait e C s a tr q k cb i t : rmile StChunkedDataEnd None [] None i t tr C s -> ~ In 10 q -> rest_of a q k cb s ->
  exists s', rruns e s s' /\ rmile StChunkedDataEnd None [] None i (rspent (blen q) t) tr C s'.
Proof.
  intros M Nq R. destruct M as [M1 M2 M3 M4 M5 M6 M7 M8 M9 M10 M11 M12]. rewrite <- M7 in M8.
  assert (H : handle_state SResp e s = (RErr SDataBuffer, set_s_txs (tx_set i (rspent (blen q) t) (s_txs s)) (set_s_input (mk_pdata (Some a) None (k + blen q) cb) (set_s_resp (set_d_consumed (k + blen q) (s_resp s)) s)))).
  { unfold handle_state, by_side, handle_response_state. unfold bind at 1, get_d at 1. cbn [s_dir]. rewrite M1. unfold response_body_chunked_data_end. unfold bind at 1.
    rewrite (need_tx_get SResp _ _ _ M8). unfold bind at 1, input at 1. rewrite (rest_slice _ _ _ _ _ R), (rest_pd_len _ _ _ _ _ R).
    replace (take_till_lf q) with (@PInc bytes) by (symmetry; apply (proj2 (take_till_lf_spec q)); exact Nq). unfold bind at 1. rewrite (radd_mlen_eval _ _ _ _ M8). destruct R as (I & _ & _).
    destruct s as [rq rs oe cc ci ri pi txs cf si so tr' lg inp]. destruct rs as [d1 d2 d3 d4 d5 d6 d7 d8 d9 d10]. cbn in *. subst. reflexivity. }
  eapply (rpause_plain e _ StChunkedDataEnd i (rspent (blen q) t) tr C) in H; [|right; reflexivity|exact (rest_no_gap _ _ _ _ _ R)|].
  - destruct H as (s' & H1 & H2 & _). exists s'. split; [exact H1|exact H2].
  - rewrite M7 in M8. constructor; cbn; try assumption; try reflexivity.
    + apply (tx_get_set_eq _ _ _ _ M8).
    + intros j Hj. rewrite tx_get_set_other by congruence. now apply M11.
    + now apply stocked_set.
Qed.
Lemma rs_crlf e C s a tr l tail k cb i t : rmile StChunkedDataEnd None [] None i t tr C s -> ~ In 10 l -> rest_of a ((l ++ [10]) ++ tail) k cb s ->
  exists s', step SResp e s = (ROk None, s') /\ rest_of a tail (k + blen (l ++ [10])) cb s' /\ rmile StChunkedLength None [] None i (rspent (blen (l ++ [10])) t) tr C s'.
Proof.
  intros M Nl R. destruct M as [M1 M2 M3 M4 M5 M6 M7 M8 M9 M10 M11 M12]. rewrite <- M7 in M8. set (q := l ++ [10]) in *.
  assert (H : handle_state SResp e s = (ROk tt, set_s_txs (tx_set i (rspent (blen q) t) (s_txs s)) (set_s_input (mk_pdata (Some a) None (k + blen q) cb) (set_s_resp (set_d_state StChunkedLength (set_d_consumed (k + blen q) (s_resp s))) s)))).
  { unfold handle_state, by_side, handle_response_state. unfold bind at 1, get_d at 1. cbn [s_dir]. rewrite M1. unfold response_body_chunked_data_end. unfold bind at 1.
    rewrite (need_tx_get SResp _ _ _ M8). unfold bind at 1, input at 1. rewrite (rest_slice _ _ _ _ _ R).
    replace (take_till_lf (q ++ tail)) with (POk tail q) by (symmetry; apply take_till_lf_spec; split; [reflexivity|exists l; split; [reflexivity|exact Nl]]).
    destruct R as (I & _ & _). clear M9 M10 M11 M12. clearbody q.
    destruct s as [rq rs oe cc ci ri pi txs cf si so tr' lg inp]. destruct rs as [d1 d2 d3 d4 d5 d6 d7 d8 d9 d10]. cbn in M1, M2, M3, M4, M5, M6, M7, M8, I. subst. ev.
    rewrite (radd_mlen_eval _ _ _ t) by exact M8. reflexivity. }
  destruct (rest_skip _ _ _ _ _ _ R) as [L1 L2].
  apply (step_next SResp) in H; [|exact (rest_no_gap _ _ _ _ _ R)|exact (rlive_not_tunnel _ M3)|discriminate].
  rewrite M7 in *. eexists. split; [exact H|]. split; [split; [reflexivity|split; assumption]|]. constructor; cbn; try assumption; try reflexivity.
  - apply (tx_get_set_eq _ _ _ _ M8).
  - intros j Hj. rewrite tx_get_set_other by congruence. now apply M11.
  - now apply stocked_set.
Qed.
(** ** The trailer *)
Lemma rtrailer_done e s t a k cb : yes e -> tx_get (s_pidx s) (s_txs s) = Some t ->
  s_input s = mk_pdata (Some a) None k cb -> k <= blen a -> cb <= k -> d_recv (s_resp s) = Some HResponseTrailerData ->
  response_trailer_done (s_pidx s) e s = (ROk tt, set_s_trace
    ((mk_ev HResponseTrailer (s_pidx s) PlNone, SOk) :: (mk_ev HResponseTrailerData (s_pidx s) (PlData (between a cb k)), SOk) :: s_trace s)
    (set_s_input (mk_pdata (Some a) None k k) (set_s_resp (set_d_state StFinalize (set_d_recv None (s_resp s))) s))).
Proof.
  intros Y T I Lk Lc Rc. unfold response_trailer_done. unfold bind at 1, receiver_finalize_clear. unfold bind at 1, get_d at 1. cbn [s_dir]. rewrite Rc.
  unfold receiver_send_data. unfold bind at 1, try at 1. unfold bind at 1, input at 1. rewrite I. unfold pd_callback_data. cbn [pd_data pd_pos pd_cb].
  destruct (k <=? blen a) eqn:E1; [|lia]. destruct (cb <=? k) eqn:E2; [|lia]. cbn [andb]. fold (between a cb k).
  destruct s as [rq rs oe cc ci ri pi txs cf si so tr lg0 inp]. destruct rs as [d1 d2 d3 d4 d5 d6 d7 d8 d9 d10]. cbn in T, I, Rc. subst d10 inp. ev.
  rewrite (need_tx_get SResp _ _ t) by exact T. ev. rewrite (data_hook_yes e _ _ _ _ Y). unfold push. ev.
  rewrite (tx_hook_yes e _ _ _ t Y) by exact T. unfold push. ev. reflexivity.
Qed.
Lemma rs_trailer e C s a ls tr p q tail k i t : yes e -> Forall good_hline ls -> ends_block ls tail -> rmile StHeaders (Some HResponseTrailerData) [] p i t tr C s ->
  t_hpc (x_resp t) = false -> t_prog (x_resp t) = PTrailer -> rest_of a (q ++ tail) k k s -> q <> [] -> opt_text p ++ q = block_text ls ++ [13; 10] ->
  exists s', step SResp e s = (ROk None, s') /\ rest_of a tail (k + blen q) (k + blen q) s' /\
    rmile StFinalize None [] None i (add_headers SResp (map ph_of ls) t) ((mk_ev HResponseTrailer i PlNone, SOk) :: (mk_ev HResponseTrailerData i (PlData q), SOk) :: tr) C s'.
Proof.
  intros Y G Nl [M1 M2 M3 M4 M5 M6 M7 M8 M9 M10 M11 M12] Hc Pg R Nq E. rewrite <- M7 in M8.
  destruct (rblock_eval e s t a ls p q tail k k G Nl M8 Hc M1 M3 M6 R Nq E) as [l H].
  destruct (rest_skip _ _ _ _ _ _ R) as [L1 L2]. pose proof R as (_ & _ & Sk).
  unfold block_end in H. unfold bind at 1 in H. rewrite (the_tx_get SResp _ _ (add_headers SResp (map ph_of ls) t)) in H by (cbn; apply (tx_get_set_eq _ _ _ _ M8)).
  replace (t_prog (x_resp (add_headers SResp (map ph_of ls) t))) with PTrailer in H by (destruct (add_headers_rgains (map ph_of ls) t) as ((rr & hh & Eq) & _); rewrite Eq; exact (eq_sym Pg)).
  change (prog_eqb PTrailer PHeaders) with false in H. cbv iota in H.
  match type of H with _ = response_trailer_done _ e ?z => pose proof (rtrailer_done e z (add_headers SResp (map ph_of ls) t) a (k + blen q) k Y) as H1 end.
  cbn [s_pidx set_s_logs set_s_input set_s_txs set_s_resp s_txs s_input s_resp d_recv set_d_consumed set_d_header s_trace] in H1. rewrite H1 in H; clear H1; try assumption; try reflexivity; try lia; [|apply (tx_get_set_eq _ _ _ _ M8)].
  rewrite (between_app a k q tail Sk) in H. change (handle_response_state e s) with (handle_state SResp e s) in H.
  apply (step_next SResp) in H; [|exact (rest_no_gap _ _ _ _ _ R)|exact (rlive_not_tunnel _ M3)|discriminate].
  eexists. split; [exact H|]. split; [split; [reflexivity|split; assumption]|]. rewrite M7 in *. constructor; cbn; try assumption; try reflexivity.
  - apply (tx_get_set_eq _ _ _ _ M8).
  - now rewrite M9.
  - intros j Hj. rewrite tx_get_set_other by congruence. now apply M11.
  - now apply stocked_set.
Qed.

(** * The end of a response *)
Definition rcompleted_tx (t : tx) : tx :=
  let t1 := upd_dir SResp (set_t_prog PComplete) t in if coding_eqb (t_coding (x_resp t)) CdNoBody then t1 else grow SResp 0 t1.
Definition rnext_ctx (auto : bool) (i : N) (t : tx) (C : ctx) : ctx :=
  mk_ctx (fun j => if j =? i then if auto then None else Some t else cx_table C j) (cx_rest C) (if auto then pred (cx_size C) else cx_size C).
Record rclosable (t : tx) : Prop := {
  rc_cep : t_cep (x_resp t) = CeNone; rc_prog : t_prog (x_resp t) <> PComplete; rc_req : t_prog (x_req t) = PComplete }.
Lemma response_complete_eval e s t : yes e -> tx_get (s_pidx s) (s_txs s) = Some t -> rclosable t -> d_recv (s_resp s) = None -> d_status (s_resp s) <> SsDataOther -> s_other_at_end s = false ->
  state_response_complete e s = (ROk tt, 
    set_s_resp (set_d_state StIdle (s_resp s)) (set_s_pidx (wadd (s_pidx s) 1)
     (set_s_txs (if c_auto_destroy (e_cfg e) then tx_del (s_pidx s) (tx_set (s_pidx s) (rcompleted_tx t) (s_txs s)) else tx_set (s_pidx s) (rcompleted_tx t) (s_txs s))
       (push HTransactionComplete (s_pidx s) PlNone (push HResponseComplete (s_pidx s) PlNone s))))).
Proof.
  intros Y H [C P Q] R Lv Ot. unfold state_response_complete. unfold bind at 1, get at 1. unfold bind at 1. rewrite (need_tx_get SResp _ _ _ H).
  replace (prog_eqb (t_prog (x_resp t)) PComplete) with false by (destruct (t_prog (x_resp t)); try reflexivity; congruence). cbn [negb when].
  unfold bind at 1. unfold bind at 1. unfold set_progress, mod_txd. rewrite (mod_tx_get SResp _ _ _ t) by exact H. cbn [s_idx].
  set (t1 := upd_dir SResp (set_t_prog PComplete) t).
  assert (K : when (negb (coding_eqb (t_coding (x_resp t)) CdNoBody)) (ignore (body_data SResp None)) e (set_s_txs (tx_set (s_pidx s) t1 (s_txs s)) s) =
    (ROk tt, set_s_txs (tx_set (s_pidx s) (rcompleted_tx t) (s_txs s)) s)).
  { unfold rcompleted_tx. fold t1. destruct (coding_eqb _ _); [reflexivity|]. cbn [negb when]. unfold ignore, bind, try. rewrite (body_data_plain SResp e _ t1 None Y); [|apply (tx_get_set_eq _ _ _ _ H)|exact C].
    cbv zeta iota beta. cbn [s_idx s_txs set_s_txs s_pidx]. unfold body_hooks. cbn. destruct s. cbn. rewrite tx_set_set. reflexivity. }
  unfold bind at 1. rewrite K. clear K. set (t2 := rcompleted_tx t).
  assert (Oc : is_complete t2 = true).
  { unfold is_complete, t2, rcompleted_tx. destruct (coding_eqb _ _); cbn [x_req upd_dir set_x_dir set_x_resp x_dir grow x_resp]; cbn; rewrite Q; reflexivity. }
  assert (H2 : tx_get (s_pidx s) (tx_set (s_pidx s) t2 (s_txs s)) = Some t2) by apply (tx_get_set_eq _ _ _ _ H). clearbody t2. clear t1.
  unfold bind at 1. rewrite (tx_hook_yes e _ _ _ t2 Y) by exact H2.
  unfold receiver_finalize_clear. unfold bind at 1, get_d at 1. cbn [s_dir].
  destruct s as [rq rs oe cc ci ri pi txs cf si so tr lg inp]. destruct rs as [d1 d2 d3 d4 d5 d6 d7 d8 d9 d10]. cbn in H, R, Lv, Ot, H2. subst d10 oe.
  unfold push. ev. unfold request_parser_check_waiting. ev. replace (match d1 with SsDataOther => true | _ => false end) with false by (destruct d1; reflexivity || congruence). ev.
  unfold finalize. ev.
  rewrite H2, Oc. rewrite (tx_hook_yes e _ _ _ t2 Y) by exact H2. unfold response_next, check_free, push. ev. rewrite H2, Oc. destruct (c_auto_destroy (e_cfg e)); reflexivity.
Qed.
Lemma rs_complete e C s a rest k cb i t tr buf s1 : yes e -> rmile StFinalize None buf None i t tr C s1 -> snd (cx_rest C) = false ->
  pd_is_gap (s_input s) = false -> handle_response_state e s = state_response_complete e s1 -> rest_of a rest k cb s1 ->
  rclosable t -> i + 1 < 2 ^ 64 ->
  exists s', step SResp e s = (ROk None, s') /\ rest_of a rest k cb s' /\
    rresting buf (i + 1) ((mk_ev HTransactionComplete i PlNone, SOk) :: (mk_ev HResponseComplete i PlNone, SOk) :: tr) (rnext_ctx (c_auto_destroy (e_cfg e)) i (rcompleted_tx t) C) s'.
Proof.
  intros Y [M1 M2 M3 M4 M5 M6 M7 M8 M9 M10 M11 M12] Ot G H R Cl Li. rewrite <- M7 in M8.
  rewrite (response_complete_eval e s1 t Y M8 Cl M4 ltac:(destruct M3 as [-> | ->]; discriminate)) in H by (rewrite <- M10 in Ot; exact Ot).
  assert (Wi : wadd (s_pidx s1) 1 = i + 1) by (rewrite M7; unfold wadd; apply N.mod_small; exact Li).
  apply (step_next SResp) in H; [|exact G|exact (rlive_not_tunnel _ M3)|discriminate].
  eexists. split; [exact H|]. split; [exact R|].
  rewrite M7 in *. clear H. unfold rnext_ctx. set (t2 := rcompleted_tx t). clearbody t2.
  assert (St : stocked (cx_size C) (tx_set i t2 (s_txs s1))) by now apply stocked_set.
  assert (Os : forall j, j <> i -> tx_get j (tx_set i t2 (s_txs s1)) = cx_table C j) by (intros j Hj; rewrite tx_get_set_other by congruence; now apply M11).
  assert (Et : tx_get i (tx_set i t2 (s_txs s1)) = Some t2) by apply (tx_get_set_eq _ _ _ _ M8).
  destruct (c_auto_destroy (e_cfg e)); constructor; cbn; try assumption; try reflexivity; try (now left); try (now rewrite M9).
  - left. split; [|now apply stocked_del; [rewrite Et|]]. destruct (i + 1 =? i) eqn:E; [lia|]. rewrite tx_get_del by lia. apply Os. lia.
  - intros j Hj. destruct (j =? i) eqn:E.
    + apply N.eqb_eq in E. subst j. apply get_del, St.
    + rewrite tx_get_del by lia. apply Os. lia.
  - left. split; [|exact St]. destruct (i + 1 =? i) eqn:E; [lia|]. apply Os. lia.
  - intros j Hj. destruct (j =? i) eqn:E; [apply N.eqb_eq in E; now subst j|apply Os; lia].
Qed.
Lemma rfinal_empty e s a k cb : d_state (s_resp s) = StFinalize -> rlive (d_status (s_resp s)) -> rest_of a [] k cb s -> handle_response_state e s = state_response_complete e s.
Proof.
  intros D L R. unfold handle_response_state. unfold bind at 1, get_d at 1. cbn [s_dir]. rewrite D. unfold response_finalize. unfold bind at 1, input at 1. unfold bind at 1, get_d at 1.
  rewrite (rest_no_gap _ _ _ _ _ R), (rest_slice _ _ _ _ _ R). cbn [s_dir]. rewrite (rlive_closed_eqb _ L). reflexivity.
Qed.
Lemma rline_split r p q : good_status r -> p ++ q = status_line_text r -> q <> [] -> exists q', q = q' ++ [10] /\ ~ In 10 q'.
Proof.
  intros G E Nq. rewrite status_line_body in E. pose proof (line_body_plain r G) as Pl. destruct (exists_last Nq) as (q' & z & ->).
  replace (line_body r ++ [13; 10]) with ((line_body r ++ [13]) ++ [10]) in E by (rewrite <- app_assoc; reflexivity). rewrite app_assoc in E. apply app_inj_tail in E as [E ->].
  exists q'. split; [reflexivity|]. intro I. assert (J : In 10 (line_body r ++ [13])) by (rewrite <- E; apply in_or_app; now right).
  apply in_app_or in J as [J|[J|[]]]; [|discriminate J]. unfold plain_line in Pl. rewrite Forall_forall in Pl. specialize (Pl _ J). lia.
Qed.
Lemma rfinal_line e s a p q tail r k cb : good_status r -> d_state (s_resp s) = StFinalize -> rlive (d_status (s_resp s)) -> d_buf (s_resp s) = p -> d_header (s_resp s) = None ->
  rest_of a (q ++ tail) k cb s -> p ++ q = status_line_text r -> q <> [] -> q <> [10] -> p = [] \/ k = 0 -> blen (status_line_text r) <= c_field_limit (e_cfg e) ->
  handle_response_state e s = state_response_complete e (set_s_input (mk_pdata (Some a) None k cb) (set_s_resp (set_d_consumed k (set_d_buf p (s_resp s))) s)).
Proof.
  intros G D L B Hh R E Nq Nl K Lim. unfold handle_response_state. unfold bind at 1, get_d at 1. cbn [s_dir]. rewrite D. unfold response_finalize. unfold bind at 1, input at 1. unfold bind at 1, get_d at 1.
  rewrite (rest_no_gap _ _ _ _ _ R), (rest_slice _ _ _ _ _ R). cbn [s_dir]. rewrite (rlive_closed_eqb _ L).
  destruct (rline_split r p q G E Nq) as (q' & Eq & Hq').
  assert (S2 : take_till_lf (q ++ tail) = POk tail q) by (apply take_till_lf_spec; split; [reflexivity|eauto]).
  destruct (q ++ tail) as [|c w] eqn:Ew; [apply app_eq_nil in Ew as [-> _]; congruence|].
  replace (c =? 10) with false.
  2:{ destruct q' as [|x q']; [subst q; cbn in Nl; congruence|]. subst q. cbn in Ew. injection Ew as <- _. symmetry. apply N.eqb_neq. intro. subst x. apply Hq'. now left. }
  rewrite S2. clear S2 Eq Hq' q'.
  assert (Le : blen (status_line_text r) = blen p + blen q) by (rewrite <- E; unfold blen; rewrite app_length; lia).
  assert (Ck : forall z, d_buf (s_resp z) = p -> d_header (s_resp z) = None -> check_limit_if_buffered SResp (blen q) e z = (ROk tt, z)).
  { intros z Hb Hz. unfold check_limit_if_buffered. unfold bind at 1, get_d at 1. cbn [s_dir]. destruct (is_nil (d_buf (s_resp z))); [reflexivity|]. cbn [negb when].
    unfold check_buffer_limit. destruct (blen q =? 0); [reflexivity|]. unfold bind at 1, get_d at 1. unfold bind at 1, ask at 1. cbn [s_dir]. rewrite Hb, Hz.
    destruct (_ <? _) eqn:Ec; [lia|]. reflexivity. }
  pose proof (status_not_body r) as Hm. destruct R as (I & _ & _).
  destruct s as [rq rs oe cc ci ri pi txs cf si so tr lg inp]. destruct rs as [d1 d2 d3 d4 d5 d6 d7 d8 d9 d10]. cbn in D, L, B, Hh, I. subst d3 d4 d8 inp.
  unfold response_finalize_work. unfold consume, set_input. unfold bind at 1, bind at 1, input at 1. unfold bind at 1, modify at 1. unfold upd_d at 1, modify at 1. unfold bind at 1. rewrite Ck by reflexivity.
  unfold take_buf. ev. rewrite E, Hm.
  replace (match status_line_text r with [] => true | _ => false end) with false by (destruct (status_line_text r) eqn:El; [apply app_eq_nil in E as [_ ->]; congruence|reflexivity]).
  ev.
  assert (Ef : firstn (length p) (status_line_text r) = p) by (rewrite <- E, firstn_app, Nat.sub_diag, firstn_all; cbn [firstn]; apply app_nil_r).
  assert (Ek : (if blen (status_line_text r) <? k + blen q then k + blen q - blen (status_line_text r) else 0) = k).
  { rewrite Le. destruct K as [-> | ->]; [change (blen []) with 0|]; destruct (_ <? _) eqn:Ec; lia. }
  repeat match goal with |- context [firstn (length p) ?x] => change x with (status_line_text r) end. rewrite Ef.
  unfold pd_unconsume, set_pd_pos. cbn [pd_pos pd_data pd_gap pd_cb app].
  rewrite Ek. reflexivity.
Qed.
Lemma rs_final_part e C s a tr p q k cb i t : rmile StFinalize None p None i t tr C s -> rest_of a q k cb s -> ~ In 10 q -> q <> [] -> blen p + blen q <= c_field_limit (e_cfg e) ->
  exists s', rruns e s s' /\ rmile StFinalize None (p ++ q) None i t tr C s'.
Proof.
  intros M R Nl Nq L. destruct M as [M1 M2 M3 M4 M5 M6 M7 M8 M9 M10 M11 M12].
  assert (H : handle_state SResp e s = absent_lf SResp e s).
  { unfold handle_state, by_side, handle_response_state. unfold bind at 1, get_d at 1. cbn [s_dir]. rewrite M1. unfold response_finalize. unfold bind at 1, input at 1. unfold bind at 1, get_d at 1.
    rewrite (rest_no_gap _ _ _ _ _ R), (rest_slice _ _ _ _ _ R). cbn [s_dir]. rewrite (rlive_closed_eqb _ M3).
    replace (take_till_lf q) with (@PInc bytes) by (symmetry; now apply take_till_lf_spec). destruct q as [|c w]; [congruence|].
    destruct (c =? 10) eqn:Ec; [exfalso; apply Nl; left; lia|]. reflexivity. }
  rewrite (rabsent_lf_eval e s a q k cb R M6) in H by (rewrite M5; exact L).
  eapply (rpause_plain e _ StFinalize i t tr C) in H; [|right; reflexivity|exact (rest_no_gap _ _ _ _ _ R)|].
  - destruct H as (s' & H1 & H2 & _). exists s'. split; [exact H1|exact H2].
  - constructor; cbn; try assumption; try reflexivity. now rewrite M5.
Qed.
Lemma rs_final_end e C s a tr k cb i t : yes e -> rmile StFinalize None [] None i t tr C s -> snd (cx_rest C) = false -> rclosable t -> i + 1 < 2 ^ 64 -> rest_of a [] k cb s ->
  exists s', step SResp e s = (ROk None, s') /\ rest_of a [] k cb s' /\
    rresting [] (i + 1) ((mk_ev HTransactionComplete i PlNone, SOk) :: (mk_ev HResponseComplete i PlNone, SOk) :: tr) (rnext_ctx (c_auto_destroy (e_cfg e)) i (rcompleted_tx t) C) s'.
Proof.
  intros Y M Ot Cl Li R. eapply rs_complete; try eassumption; [exact (rest_no_gap _ _ _ _ _ R)|].
  apply (rfinal_empty e s a k cb); [apply (rm_state _ _ _ _ _ _ _ _ _ M)|apply (rm_live _ _ _ _ _ _ _ _ _ M)|exact R].
Qed.
Lemma rs_final_line e C s a tr p q tail r k cb i t : yes e -> rmile StFinalize None p None i t tr C s -> snd (cx_rest C) = false -> rclosable t -> i + 1 < 2 ^ 64 -> good_status r ->
  rest_of a (q ++ tail) k cb s -> p ++ q = status_line_text r -> q <> [] -> q <> [10] -> p = [] \/ k = 0 -> blen (status_line_text r) <= c_field_limit (e_cfg e) ->
  exists s', step SResp e s = (ROk None, s') /\ rest_of a (q ++ tail) k cb s' /\
    rresting p (i + 1) ((mk_ev HTransactionComplete i PlNone, SOk) :: (mk_ev HResponseComplete i PlNone, SOk) :: tr) (rnext_ctx (c_auto_destroy (e_cfg e)) i (rcompleted_tx t) C) s'.
Proof.
  intros Y [M1 M2 M3 M4 M5 M6 M7 M8 M9 M10 M11 M12] Ot Cl Li G R E Nq Nl K Lim.
  pose proof (rfinal_line e s a p q tail r k cb G M1 M3 M5 M6 R E Nq Nl K Lim) as H.
  match type of H with _ = _ e ?z => apply (rs_complete e C s a (q ++ tail) k cb i t tr p z Y) end; try assumption; [|exact (rest_no_gap _ _ _ _ _ R)|].
  - constructor; cbn; assumption || reflexivity.
  - destruct R as (I & R1 & R2). split; [reflexivity|split; assumption].
Qed.
