(** Well-formed chunked bodies of requests: from step to step. *)
From Verif Require Import Base Spec SpecTx SpecMsg ModelUtil ModelParsers ModelHeaders ModelState ModelTx ModelConn SpecConn ProofsBase ProofsParsers ProofsHeaders ProofsTx ProofsConn ProofsCore ProofsLoop ProofsHist ProofsEval ProofsBody ProofsHead ProofsFrame ProofsStream.

(** * The size line *)
Lemma hexdigit_plain x : hexdigit x -> x <> 10 /\ x <> 13 /\ x <> 59.
Proof. unfold hexdigit. lia. Qed.
Lemma size_line_shape c : good_chunk c -> exists l, size_line c = l ++ [10] /\ ~ In 10 l.
Proof.
  intros (H1 & H2 & _ & _ & H3). exists (ck_size c ++ ck_ext c ++ [13]). split; [unfold size_line; rewrite <- !app_assoc; reflexivity|].
  intro I. apply in_app_or in I as [I|I]; [rewrite Forall_forall in H2; apply H2, hexdigit_plain in I; lia|]. apply in_app_or in I as [I|I]; [|cbn in I; lia].
  destruct H3 as [H3 | (x & H3 & Hx)]; rewrite H3 in I; [destruct I|]. destruct I as [I|I]; [discriminate|contradiction].
Qed.
Lemma size_line_head c : good_chunk c -> exists x l, size_line c = x :: l /\ hexdigit x.
Proof.
  intros (H1 & H2 & _). unfold size_line. destruct (ck_size c) as [|x l]; [congruence|]. inversion_clear H2. now exists x, (l ++ ck_ext c ++ [13; 10]).
Qed.
Lemma size_line_value c : good_chunk c -> exists ext, parse_chunked_length (size_line c) = Some (Some (blen (ck_data c)), ext).
Proof.
  intro G. assert (G' := G). destruct G' as (H1 & H2 & H3 & H4 & H5). exists (memb 59 (ck_ext c ++ [13; 10])).
  assert (L : chunk_line (size_line c) (ck_size c) (ck_ext c ++ [13; 10])).
  { destruct (size_line_head c G) as (x & l & E & Hx). exists [], (size_line c), [], (ck_ext c ++ [13; 10]). split; [|split].
    - split; [reflexivity|]. split; [constructor|]. intros y r Ey. rewrite E in Ey. injection Ey as <- _. unfold chunk_ctl. revert Hx. unfold hexdigit. lia.
    - split; [reflexivity|]. split; [exact H2|]. intros y r Ey Hy. destruct H5 as [H5 | (z & H5 & _)]; rewrite H5 in Ey; injection Ey as <- _; revert Hy; unfold hexdigit; lia.
    - split; [reflexivity|]. split; [constructor|]. intros y r Ey Hy. destruct H5 as [H5 | (z & H5 & _)]; rewrite H5 in Ey; injection Ey as <- _; revert Hy; unfold sp_or_tab; lia. }
  rewrite (parse_chunked_length_cases _ _ _ L). rewrite H3. destruct (ck_size c) as [|x l]; [congruence|]. cbn [length Nat.eqb].
  replace (blen (ck_data c) <=? i32_max) with true by (unfold i32_max; lia). reflexivity.
Qed.

(** * Steps *)
Definition spent (n : N) (t : tx) : tx := upd_dir SReq (fun d => set_t_mlen (wadd (t_mlen d) n) d) t.
Lemma add_mlen_eval n e s t : tx_get (s_ridx s) (s_txs s) = Some t -> add_mlen SReq n e s = (ROk tt, set_s_txs (tx_set (s_ridx s) (spent n t) (s_txs s)) s).
Proof. intro H. unfold add_mlen, mod_txd. now rewrite (mod_tx_get SReq _ _ _ _ H). Qed.
Lemma ph_chunked e C s a rest tr k cb i t : mile StBodyDetermine None [] None i t tr C s -> t_coding (x_req t) = CdChunked -> rest_of a rest k cb s ->
  exists s', step SReq e s = (ROk None, s') /\ rest_of a rest k cb s' /\ mile StChunkedLength None [] None i (upd_dir SReq (set_t_prog PBody) t) tr C s'.
Proof.
  intros [M1 M2 M3 M4 M5 M6 M7 M8 M9 M10 M11 M12] Hc R. rewrite <- M7 in M8.
  assert (H : handle_state SReq e s = (ROk tt, set_s_txs (tx_set (s_ridx s) (upd_dir SReq (set_t_prog PBody) t) (s_txs s)) (set_s_req (set_d_state StChunkedLength (s_req s)) s))).
  { unfold handle_state, by_side, handle_request_state. unfold bind at 1, get_d at 1. cbn [s_dir]. rewrite M1. unfold request_body_determine. unfold bind at 1.
    rewrite (need_tx_get SReq _ _ _ M8), Hc. unfold bind at 1, set_progress, mod_txd. rewrite (mod_tx_get SReq _ _ _ _ M8). reflexivity. }
  apply (step_next SReq) in H; [|exact (rest_no_gap _ _ _ _ _ R)|exact (live_not_tunnel _ M3)|discriminate].
  eexists. split; [exact H|]. split; [exact R|]. rewrite M7 in *. constructor; cbn; try assumption; try reflexivity.
  - apply (tx_get_set_eq _ _ _ _ M8).
  - intros j Hj. rewrite tx_get_set_other by congruence. now apply M11.
  - now rewrite length_set.
Qed.
(** A whole size line. *)
Lemma length_eval e C s a tr c tail k cb i t : mile StChunkedLength None [] None i t tr C s -> good_chunk c -> rest_of a (size_line c ++ tail) k cb s ->
  exists l, handle_request_state e s =
    (if blen (ck_data c) =? 0 then set_state SReq StHeaders ;; set_progress SReq PTrailer else set_state SReq StChunkedData) e
      (set_s_logs l (set_s_txs (tx_set i (spent (blen (size_line c)) t) (s_txs s)) (set_s_input (mk_pdata (Some a) None (k + blen (size_line c)) cb)
        (set_s_req (set_d_chunk (Some (blen (ck_data c))) (set_d_consumed (k + blen (size_line c)) (s_req s))) s)))).
Proof.
  intros [M1 M2 M3 M4 M5 M6 M7 M8 M9 M10 M11 M12] G R. rewrite <- M7 in M8.
  unfold handle_request_state. unfold bind at 1, get_d at 1. cbn [s_dir]. rewrite M1. unfold request_body_chunked_length. unfold bind at 1, slice at 1. rewrite (rest_slice _ _ _ _ _ R).
  destruct (size_line_shape c G) as (l & El & Hl). destruct (size_line_value c G) as (ext & Ev). destruct (size_line_head c G) as (x & m & Em & Hx).
  cbn [request_chunked_length_loop]. replace (take_till_lf (size_line c ++ tail)) with (POk tail (size_line c)) by (symmetry; apply take_till_lf_spec; split; [reflexivity|eauto]).
  assert (Nb : bytes_eqb (size_line c) [10] = false).
  { apply Bool.not_true_is_false. intro Z. apply bytes_eqb_eq in Z. rewrite Em in Z. injection Z as -> _. revert Hx. unfold hexdigit. lia. }
  clear M9 M10 M11 M12. set (sl := size_line c) in *. clearbody sl. clear El Em. destruct R as (I & _ & _).
  destruct s as [rq rs oe cc ci ri pi txs cf si so tr' lg inp]. destruct rq as [d1 d2 d3 d4 d5 d6 d7 d8 d9 d10]. cbn in M1, M2, M3, M4, M5, M6, M7, M8, I. subst.
  unfold consume, set_input. unfold bind at 1, bind at 1, input at 1. unfold bind at 1, modify at 1. unfold upd_d at 1, modify at 1.
  unfold bind at 1, check_limit_if_buffered. unfold bind at 1, get_d at 1. cbn [s_dir s_req d_buf set_s_input set_s_req set_s_dir set_d_consumed is_nil negb when].
  unfold ret at 1. unfold bind at 1. rewrite (need_tx_get SReq _ _ t) by exact M8. rewrite Nb. unfold bind at 1, get_d at 1. match goal with |- context [parse_chunked_length ?z] => change z with sl end. match goal with |- context [add_mlen SReq (blen ?z)] => change z with sl end. rewrite Ev. unfold bind at 1. rewrite (add_mlen_eval _ _ _ t) by exact M8.
  set (F := if blen (ck_data c) =? 0 then _ else _). clearbody F. destruct ext; ev; unfold log; ev; [destruct (LvWarning <=? _)|]; eexists; reflexivity.
Qed.
Lemma ph_length e C s a tr c tail k cb i t : mile StChunkedLength None [] None i t tr C s -> good_chunk c -> ck_data c <> [] -> rest_of a (size_line c ++ tail) k cb s ->
  exists s', step SReq e s = (ROk None, s') /\ rest_of a tail (k + blen (size_line c)) cb s' /\
    mile StChunkedData None [] None i (spent (blen (size_line c)) t) tr C s' /\ d_chunk (s_req s') = Some (blen (ck_data c)).
Proof.
  intros M G Nd R. destruct (length_eval e C s a tr c tail k cb i t M G R) as [l H]. destruct M as [M1 M2 M3 M4 M5 M6 M7 M8 M9 M10 M11 M12].
  destruct (blen (ck_data c) =? 0) eqn:E; [exfalso; apply N.eqb_eq in E; destruct (ck_data c); [congruence|discriminate E]|]. clear E.
  destruct (rest_skip _ _ _ _ _ _ R) as [L1 L2].
  change (handle_request_state e s) with (handle_state SReq e s) in H.
  apply (step_next SReq) in H; [|exact (rest_no_gap _ _ _ _ _ R)|exact (live_not_tunnel _ M3)|discriminate].
  eexists. split; [exact H|]. split; [split; [reflexivity|split; assumption]|]. split; [|reflexivity]. constructor; cbn; try assumption; try reflexivity.
  - apply (tx_get_set_eq _ _ _ _ M8).
  - intros j Hj. rewrite tx_get_set_other by congruence. now apply M11.
  - now rewrite length_set.
Qed.
(** The last chunk: the trailer follows. *)
Lemma ph_length_last e C s a tr c tail k cb i t : mile StChunkedLength None [] None i t tr C s -> good_chunk c -> ck_data c = [] -> rest_of a (size_line c ++ tail) k cb s ->
  exists s', step SReq e s = (ROk None, s') /\ rest_of a tail (k + blen (size_line c)) (k + blen (size_line c)) s' /\
    mile StHeaders (Some HRequestTrailerData) [] None i (upd_dir SReq (set_t_prog PTrailer) (spent (blen (size_line c)) t)) tr C s'.
Proof.
  intros M G Nd R. destruct (length_eval e C s a tr c tail k cb i t M G R) as [l H]. destruct M as [M1 M2 M3 M4 M5 M6 M7 M8 M9 M10 M11 M12].
  rewrite Nd in H. change (blen [] =? 0) with true in H. cbv iota in H. destruct (rest_skip _ _ _ _ _ _ R) as [L1 L2]. pose proof (rest_no_gap _ _ _ _ _ R) as Gp.
  set (t1 := spent _ t) in *. set (n := k + _) in *.
  set (t2 := upd_dir SReq (set_t_prog PTrailer) t1).
  assert (T2 : tx_get i (tx_set i t2 (s_txs s)) = Some t2) by apply (tx_get_set_eq _ _ _ _ M8).
  match type of H with _ = _ e ?z => set (z1 := z) in * end.
  assert (Hz : tx_get (s_ridx (set_s_req (set_d_state StHeaders (s_req z1)) z1)) (s_txs (set_s_req (set_d_state StHeaders (s_req z1)) z1)) = Some t1).
  { unfold z1. cbn. rewrite M7. apply (tx_get_set_eq _ _ _ _ M8). }
  assert (H2 : handle_request_state e s = (ROk tt, set_s_txs (tx_set i t2 (s_txs s)) (set_s_req (set_d_state StHeaders (s_req z1)) z1))).
  { rewrite H. unfold bind at 1, set_state, upd_d, modify. cbn [set_s_dir s_dir]. unfold set_progress, mod_txd. rewrite (mod_tx_get SReq _ _ _ t1) by exact Hz. cbn [s_idx]. unfold z1. cbn [s_txs s_ridx set_s_req set_s_txs set_s_logs set_s_input]. rewrite M7.
    change (s_txs (set_s_req _ (set_s_logs l (set_s_txs ?y _)))) with y. rewrite tx_set_set. reflexivity. }
  eexists. split; [|split].
  - unfold step. unfold bind at 1, input at 1. unfold bind at 1, get_d at 1. rewrite Gp. cbn [andb].
    unfold bind at 1, try at 1. unfold handle_state, by_side. rewrite H2. unfold bind at 1, get_d at 1.
    match goal with |- context [sstate_eqb (d_status ?y) SsTunnel] => replace (sstate_eqb (d_status y) SsTunnel) with false by (change (d_status y) with (d_status (s_req s)); destruct M3 as [-> | [-> | ->]]; reflexivity) end.
    unfold bind at 1, try at 1, handle_state_change. unfold bind at 1, get_d at 1.
    match goal with |- context [pstate_eqb (d_prev ?y) (d_state ?y')] => change (d_prev y) with (d_prev (s_req s)); change (d_state y') with StHeaders end. rewrite M2. cbn [pstate_eqb].
    unfold bind at 1. unfold by_side at 1. unfold bind at 1. rewrite (the_tx_get SReq _ _ t2) by (unfold z1; cbn; rewrite M7; exact T2). unfold bind at 1, modify at 1. cbn [x_dir].
    change (t_prog (x_req t2)) with PTrailer. cbv iota. reflexivity.
  - split; [|split; assumption]. unfold z1. cbn. reflexivity.
  - unfold z1. constructor; cbn; try assumption; try reflexivity.
    + intros j Hj. rewrite tx_get_set_other by congruence. now apply M11.
    + now rewrite length_set.
Qed.
Lemma ph_length_wait e C s a tr k cb i t : mile StChunkedLength None [] None i t tr C s -> rest_of a [] k cb s ->
  exists s', runs e s s' /\ mile StChunkedLength None [] None i t tr C s'.
Proof.
  intros M R. assert (M' := M). destruct M as [M1 M2 M3 M4 M5 M6 M7 M8 M9 M10 M11 M12].
  assert (H : handle_state SReq e s = absent_lf SReq e s).
  { unfold handle_state, by_side, handle_request_state. unfold bind at 1, get_d at 1. cbn [s_dir]. rewrite M1. unfold request_body_chunked_length. unfold bind at 1, slice at 1. rewrite (rest_slice _ _ _ _ _ R). reflexivity. }
  rewrite (absent_lf_eval e s a [] k cb R M6) in H by (rewrite M5; change (blen []) with 0; lia).
  eapply pause_plain in H; [|right; reflexivity|exact M'|exact (rest_no_gap _ _ _ _ _ R)|].
  - destruct H as (s' & H1 & H2 & _). exists s'. split; [exact H1|exact H2].
  - constructor; cbn; try assumption; try reflexivity. now rewrite M5.
Qed.
(** ** The data of a chunk *)
Lemma ph_chunk_wait e C s a tr k cb i t n : mile StChunkedData None [] None i t tr C s -> d_chunk (s_req s) = Some n -> rest_of a [] k cb s ->
  exists s', runs e s s' /\ mile StChunkedData None [] None i t tr C s' /\ d_chunk (s_req s') = Some n.
Proof.
  intros M L R. assert (H : handle_state SReq e s = (RErr SData, s)).
  { unfold handle_state, by_side, handle_request_state. unfold bind at 1, get_d at 1. cbn [s_dir]. rewrite (ml_state _ _ _ _ _ _ _ _ _ M). unfold body_chunked_data.
    unfold bind at 1, input at 1. rewrite (rest_pd_len _ _ _ _ _ R). change (blen []) with 0. unfold bind at 1, get_d at 1. rewrite N.min_0_l. reflexivity. }
  rewrite <- L. eapply pause_plain in H; [|left; reflexivity|exact M|exact (rest_no_gap _ _ _ _ _ R)|exact M]. destruct H as (s' & H1 & H2 & _ & H3). exists s'. auto.
Qed.
(** The state after [c] has been delivered as part of a chunk. *)
Definition ate_chunk (k : N) (c : bytes) (m : N) (t : tx) (s : st) : st :=
  let s1 := set_s_txs (tx_set (s_ridx s) (grow SReq (blen c) t) (s_txs s)) s in
  let s2 := body_hooks SReq (s_ridx s) (PlData c) s1 in
  let s3 := set_s_input (set_pd_pos (k + blen c) (s_input s)) s2 in
  set_s_req (set_d_chunk (Some m) (set_d_consumed (k + blen c) (s_req s))) s3.
Lemma chunk_eval e s t n a c tail k cb : yes e -> tx_get (s_ridx s) (s_txs s) = Some t -> t_cep (x_req t) = CeNone ->
  d_state (s_req s) = StChunkedData -> d_chunk (s_req s) = Some n -> rest_of a (c ++ tail) k cb s -> 0 < blen c -> blen c = n \/ (blen c < n /\ tail = []) ->
  handle_request_state e s = (if n - blen c =? 0 then set_state SReq StChunkedDataEnd else fail SData) e (ate_chunk k c (n - blen c) t s).
Proof.
  intros Y B C D1 D3 I L Ln. unfold handle_request_state. unfold bind at 1, get_d at 1. cbn [s_dir]. rewrite D1.
  unfold body_chunked_data. unfold bind at 1, input at 1. unfold bind at 1, get_d at 1. cbn [s_dir]. rewrite D3.
  rewrite (rest_pd_len _ _ _ _ _ I). replace (N.min (blen (c ++ tail)) n) with (blen c).
  2:{ unfold blen in *. rewrite app_length. destruct Ln as [Ln | [Ln ->]]; [lia|cbn [length]; lia]. }
  destruct (blen c =? 0) eqn:E0; [lia|]. unfold bind at 1. rewrite (slice_to_front a c tail k cb) by exact I.
  unfold bind at 1. rewrite (body_data_plain SReq e s t (Some c) Y) by assumption.
  cbv zeta. destruct c as [|x c]; [cbn in L; lia|]. set (c0 := x :: c) in *. cbv iota beta.
  unfold ate_chunk. destruct s as [rq rs oe cc ci ri pi txs cf si so tr lg inp]. destruct rq as [d1 d2 d3 d4 d5 d6 d7 d8 d9 d10]. destruct I as (I & _ & _). cbn in I, D1, D3, B. subst.
  unfold body_hooks, push. ev. destruct (n - blen c0 =? 0); reflexivity.
Qed.
Lemma ate_chunk_mile C k c m t tr i s : mile StChunkedData None [] None i t tr C s ->
  mile StChunkedData None [] None i (grow SReq (blen c) t) (piece i (PlData c) ++ tr) C (ate_chunk k c m t s).
Proof.
  intros [M1 M2 M3 M4 M5 M6 M7 M8 M9 M10 M11 M12]. unfold ate_chunk, body_hooks, push. rewrite M7. constructor; cbn; try assumption; try reflexivity.
  - apply (tx_get_set_eq _ _ _ _ M8).
  - now rewrite M9.
  - intros j Hj. rewrite tx_get_set_other by congruence. now apply M11.
  - now rewrite length_set.
Qed.
Lemma ph_chunk_part e C s a tr c k cb i t n : yes e -> mile StChunkedData None [] None i t tr C s -> t_cep (x_req t) = CeNone -> d_chunk (s_req s) = Some n -> rest_of a c k cb s ->
  0 < blen c < n ->
  exists s', runs e s s' /\ mile StChunkedData None [] None i (grow SReq (blen c) t) (piece i (PlData c) ++ tr) C s' /\ d_chunk (s_req s') = Some (n - blen c).
Proof.
  intros Y M Ce L R Lc. pose proof (ate_chunk_mile C k c (n - blen c) t tr i s M) as M'.
  assert (H : handle_state SReq e s = (RErr SData, ate_chunk k c (n - blen c) t s)).
  { pose proof (ml_tx _ _ _ _ _ _ _ _ _ M) as M8. rewrite <- (ml_idx _ _ _ _ _ _ _ _ _ M) in M8. rewrite <- (app_nil_r c) in R. unfold handle_state, by_side.
    rewrite (chunk_eval e s t n a c [] k cb Y M8 Ce (ml_state _ _ _ _ _ _ _ _ _ M) L R) by (right + idtac; lia || (right; split; [lia|reflexivity])).
    destruct (n - blen c =? 0) eqn:E; [lia|reflexivity]. }
  destruct M' as [M1 M2 M3 M4 M5 M6 M7 M8 M9 M10 M11 M12].
  apply (step_err SReq) in H; [|exact (rest_no_gap _ _ _ _ _ R)].
  assert (L2 : d_chunk (s_req (ate_chunk k c (n - blen c) t s)) = Some (n - blen c)) by reflexivity.
  set (s1 := ate_chunk k c (n - blen c) t s) in *. clearbody s1.
  destruct (after_step_data SReq SData e s1) as (p & l & H3 & H4 & _); [now left|exact M4|]. rewrite H3 in H. clear H3. cbn [s_idx] in H4. rewrite M7 in H4.
  destruct H4 as [-> | (H4 & _)]; [|congruence].
  eexists. split; [apply runs_last; exact H|]. split; [constructor; cbn; try assumption; try reflexivity; now left|exact L2].
Qed.
Lemma ph_chunk_last e C s a tr c tail k cb i t : yes e -> mile StChunkedData None [] None i t tr C s -> t_cep (x_req t) = CeNone -> d_chunk (s_req s) = Some (blen c) -> rest_of a (c ++ tail) k cb s ->
  c <> [] ->
  exists s', step SReq e s = (ROk None, s') /\ rest_of a tail (k + blen c) cb s' /\
    mile StChunkedDataEnd None [] None i (grow SReq (blen c) t) (piece i (PlData c) ++ tr) C s'.
Proof.
  intros Y M Ce L R Nc. pose proof (ate_chunk_mile C k c (blen c - blen c) t tr i s M) as M'.
  assert (H : handle_state SReq e s = (ROk tt, set_s_req (set_d_state StChunkedDataEnd (s_req (ate_chunk k c (blen c - blen c) t s))) (ate_chunk k c (blen c - blen c) t s))).
  { pose proof (ml_tx _ _ _ _ _ _ _ _ _ M) as M8. rewrite <- (ml_idx _ _ _ _ _ _ _ _ _ M) in M8. unfold handle_state, by_side.
    rewrite (chunk_eval e s t (blen c) a c tail k cb Y M8 Ce (ml_state _ _ _ _ _ _ _ _ _ M) L R); [|destruct c; [congruence|unfold blen; cbn; lia]|now left].
    rewrite N.sub_diag. reflexivity. }
  destruct (rest_skip _ _ _ _ _ _ R) as [L1 L2].
  assert (I2 : s_input (ate_chunk k c (blen c - blen c) t s) = mk_pdata (Some a) None (k + blen c) cb) by (destruct R as (I & _ & _); cbn; now rewrite I).
  set (s1 := ate_chunk k c (blen c - blen c) t s) in *. clearbody s1. destruct M' as [M1 M2 M3 M4 M5 M6 M7 M8 M9 M10 M11 M12].
  apply (step_next SReq) in H; [|exact (rest_no_gap _ _ _ _ _ R)|exact (live_not_tunnel _ M3)|discriminate].
  eexists. split; [exact H|]. split; [split; [exact I2|split; assumption]|]. constructor; cbn; try assumption; try reflexivity.
Qed.
(** ** The line end after the data *)
Lemma ph_crlf_wait e C s a tr k cb i t : mile StChunkedDataEnd None [] None i t tr C s -> rest_of a [] k cb s ->
  exists s', runs e s s' /\ mile StChunkedDataEnd None [] None i (spent 0 t) tr C s'.
Proof.
  intros M R. assert (M' := M). destruct M as [M1 M2 M3 M4 M5 M6 M7 M8 M9 M10 M11 M12]. rewrite <- M7 in M8.
  set (s1 := set_s_txs (tx_set i (spent 0 t) (s_txs s)) s).
  assert (R1 : rest_of a [] k cb s1) by exact R.
  assert (H : handle_state SReq e s = absent_lf SReq e s1).
  { unfold handle_state, by_side, handle_request_state. unfold bind at 1, get_d at 1. cbn [s_dir]. rewrite M1. unfold request_body_chunked_data_end. unfold bind at 1.
    rewrite (need_tx_get SReq _ _ _ M8). unfold bind at 1, input at 1. rewrite (rest_slice _ _ _ _ _ R), (rest_pd_len _ _ _ _ _ R). change (take_till_lf []) with (@PInc bytes). cbv iota. unfold bind at 1. rewrite (add_mlen_eval _ _ _ _ M8). unfold s1. rewrite M7. reflexivity. }
  rewrite (absent_lf_eval e s1 a [] k cb R1 M6) in H by (cbn; rewrite M5; change (blen []) with 0; lia).
  apply (step_err SReq) in H; [|exact (rest_no_gap _ _ _ _ _ R)]. rewrite M7 in *.
  match type of H with _ = after_step _ _ _ ?z => set (s2 := z) in * end.
  assert (M2' : mile StChunkedDataEnd None [] None i (spent 0 t) tr C s2).
  { unfold s2, s1. constructor; cbn; try assumption; try reflexivity.
    - now rewrite M5.
    - apply (tx_get_set_eq _ _ _ _ M8).
    - intros j Hj. rewrite tx_get_set_other by congruence. now apply M11.
    - now rewrite length_set. }
  clearbody s2. clear - H M2'. destruct M2' as [M1 M2 M3 M4 M5 M6 M7 M8 M9 M10 M11 M12].
  destruct (after_step_data SReq SDataBuffer e s2) as (p & l & H3 & H4 & _); [now right|exact M4|]. rewrite H3 in H. clear H3. cbn [s_idx] in H4. rewrite M7 in H4.
  destruct H4 as [-> | (H4 & _)]; [|congruence].
  eexists. split; [apply runs_last; exact H|]. constructor; cbn; try assumption; try reflexivity; now left.
Qed.
Lemma ph_crlf e C s a tr tail k cb i t : mile StChunkedDataEnd None [] None i t tr C s -> rest_of a ([13; 10] ++ tail) k cb s ->
  exists s', step SReq e s = (ROk None, s') /\ rest_of a tail (k + 2) cb s' /\ mile StChunkedLength None [] None i (spent 2 t) tr C s'.
Proof.
  intros M R. destruct M as [M1 M2 M3 M4 M5 M6 M7 M8 M9 M10 M11 M12]. rewrite <- M7 in M8.
  assert (H : handle_state SReq e s = (ROk tt, set_s_txs (tx_set i (spent 2 t) (s_txs s)) (set_s_input (mk_pdata (Some a) None (k + 2) cb) (set_s_req (set_d_state StChunkedLength (set_d_consumed (k + 2) (s_req s))) s)))).
  { unfold handle_state, by_side, handle_request_state. unfold bind at 1, get_d at 1. cbn [s_dir]. rewrite M1. unfold request_body_chunked_data_end. unfold bind at 1.
    rewrite (need_tx_get SReq _ _ _ M8). unfold bind at 1, input at 1. rewrite (rest_slice _ _ _ _ _ R).
    replace (take_till_lf ([13; 10] ++ tail)) with (POk tail [13; 10]) by (symmetry; apply take_till_lf_spec; split; [reflexivity|exists [13]; split; [reflexivity|cbn; lia]]).
    unfold bind at 1. rewrite (add_mlen_eval _ _ _ _ M8). change (blen [13; 10]) with 2. destruct R as (I & _ & _).
    destruct s as [rq rs oe cc ci ri pi txs cf si so tr' lg inp]. destruct rq as [d1 d2 d3 d4 d5 d6 d7 d8 d9 d10]. cbn in *. subst. reflexivity. }
  destruct (rest_skip _ _ _ _ _ _ R) as [L1 L2].
  apply (step_next SReq) in H; [|exact (rest_no_gap _ _ _ _ _ R)|exact (live_not_tunnel _ M3)|discriminate].
  rewrite M7 in *. eexists. split; [exact H|]. split; [split; [reflexivity|split; assumption]|]. constructor; cbn; try assumption; try reflexivity.
  - apply (tx_get_set_eq _ _ _ _ M8).
  - intros j Hj. rewrite tx_get_set_other by congruence. now apply M11.
  - now rewrite length_set.
Qed.
(** ** The trailer *)
Lemma trailer_done e s t a k cb : yes e -> tx_get (s_ridx s) (s_txs s) = Some t -> t_prog (x_req t) = PTrailer ->
  s_input s = mk_pdata (Some a) None k cb -> k <= blen a -> cb <= k -> d_recv (s_req s) = Some HRequestTrailerData ->
  state_request_headers e s = (ROk tt, set_s_trace
    ((mk_ev HRequestTrailer (s_ridx s) PlNone, SOk) :: (mk_ev HRequestTrailerData (s_ridx s) (PlData (between a cb k)), SOk) :: s_trace s)
    (set_s_input (mk_pdata (Some a) None k k) (set_s_req (set_d_state StFinalize (set_d_recv None (s_req s))) s))).
Proof.
  intros Y T Pg I Lk Lc Rc. unfold state_request_headers. unfold bind at 1, receiver_finalize_clear. unfold bind at 1, get_d at 1. cbn [s_dir]. rewrite Rc.
  unfold receiver_send_data. unfold bind at 1, try at 1. unfold bind at 1, input at 1. rewrite I. unfold pd_callback_data. cbn [pd_data pd_pos pd_cb].
  destruct (k <=? blen a) eqn:E1; [|lia]. destruct (cb <=? k) eqn:E2; [|lia]. cbn [andb]. fold (between a cb k).
  destruct s as [rq rs oe cc ci ri pi txs cf si so tr lg0 inp]. destruct rq as [d1 d2 d3 d4 d5 d6 d7 d8 d9 d10]. cbn in T, I, Rc. subst d10 inp. ev.
  rewrite (need_tx_get SReq _ _ t) by exact T. ev. rewrite (data_hook_yes e _ _ _ _ Y). unfold push. ev.
  rewrite (need_tx_get SReq _ _ t) by exact T. rewrite Pg. change (prog_rank PHeaders <? prog_rank PTrailer) with true. ev.
  rewrite (tx_hook_yes e _ _ _ t Y) by exact T. unfold push. ev. reflexivity.
Qed.
Lemma ph_trailer_done e C s0 s a t1 tr q tail k i : yes e -> mile StHeaders (Some HRequestTrailerData) [] None i t1 tr C s ->
  pd_is_gap (s_input s0) = false -> t_prog (x_req t1) = PTrailer -> rest_of a tail (k + blen q) k s -> skipn (N.to_nat k) a = q ++ tail ->
  handle_request_state e s0 = state_request_headers e s ->
  exists s', step SReq e s0 = (ROk None, s') /\ rest_of a tail (k + blen q) (k + blen q) s' /\
    mile StFinalize None [] None i t1 ((mk_ev HRequestTrailer i PlNone, SOk) :: (mk_ev HRequestTrailerData i (PlData q), SOk) :: tr) C s'.
Proof.
  intros Y [M1 M2 M3 M4 M5 M6 M7 M8 M9 M10 M11 M12] G0 Pg R Sk H1. rewrite <- M7 in M8. destruct R as (I & L1 & L2).
  rewrite (trailer_done e s t1 a (k + blen q) k Y M8 Pg I L1 ltac:(lia) M4) in H1. change (handle_request_state e s0) with (handle_state SReq e s0) in H1.
  apply (step_next SReq) in H1; [|exact G0|exact (live_not_tunnel _ M3)|discriminate].
  eexists. split; [exact H1|]. split; [split; [reflexivity|split; assumption]|].
  replace (between a k (k + blen q)) with q by (symmetry; now apply (between_app a k q tail)).
  rewrite M7 in *. cbn. rewrite M9. constructor; cbn; try assumption; reflexivity.
Qed.
Lemma ph_trailer e C s a ls tr p q tail k i t : yes e -> Forall good_hline ls -> ls <> [] -> mile StHeaders (Some HRequestTrailerData) [] p i t tr C s ->
  t_hpc (x_req t) = false -> t_prog (x_req t) = PTrailer -> rest_of a (q ++ tail) k k s -> q <> [] -> opt_text p ++ q = block_text ls ++ [13; 10] ->
  exists s', step SReq e s = (ROk None, s') /\ rest_of a tail (k + blen q) (k + blen q) s' /\
    mile StFinalize None [] None i (add_headers SReq (map ph_of ls) t) ((mk_ev HRequestTrailer i PlNone, SOk) :: (mk_ev HRequestTrailerData i (PlData q), SOk) :: tr) C s'.
Proof.
  intros Y G Nl [M1 M2 M3 M4 M5 M6 M7 M8 M9 M10 M11 M12] Hc Pg R Nq E. rewrite <- M7 in M8.
  destruct (block_eval e s t a ls p q tail k k G Nl M8 Hc M1 (live_not_closed _ M3) M6 R Nq E) as [l H1].
  destruct (rest_skip _ _ _ _ _ _ R) as [L1 L2]. pose proof R as (_ & _ & Sk). rewrite M7 in *.
  eapply ph_trailer_done in H1; [exact H1|exact Y| |exact (rest_no_gap _ _ _ _ _ R)| | |exact Sk].
  - constructor; cbn; try assumption; try reflexivity.
    + apply (tx_get_set_eq _ _ _ _ M8).
    + intros j Hj. rewrite tx_get_set_other by congruence. now apply M11.
    + now rewrite length_set.
  - destruct (add_headers_gains (map ph_of ls) t) as ((rr & hh & Eq) & _). rewrite Eq. exact Pg.
  - split; [reflexivity|split; assumption].
Qed.
Lemma ph_trailer_none e C s a tr p tail k i t : yes e -> mile StHeaders (Some HRequestTrailerData) [] p i t tr C s -> opt_text p = [] ->
  t_hpc (x_req t) = false -> t_prog (x_req t) = PTrailer -> rest_of a ([13; 10] ++ tail) k k s -> match tail with x :: _ => x <> 32 | [] => True end ->
  exists s', step SReq e s = (ROk None, s') /\ rest_of a tail (k + 2) (k + 2) s' /\
    mile StFinalize None [] None i t ((mk_ev HRequestTrailer i PlNone, SOk) :: (mk_ev HRequestTrailerData i (PlData [13; 10]), SOk) :: tr) C s'.
Proof.
  intros Y M Ep Hc Pg R Ht. pose proof (none_eval e _ _ _ _ _ _ _ _ _ _ _ M Ep Hc R Ht) as H1. destruct M as [M1 M2 M3 M4 M5 M6 M7 M8 M9 M10 M11 M12]. rewrite <- M7 in M8.
  destruct (rest_skip _ _ _ _ _ _ R) as [L1 L2]. pose proof R as (_ & _ & Sk). rewrite M7 in *.
  eapply (ph_trailer_done e C s _ a t tr [13; 10] tail k i) in H1; [exact H1|exact Y| |exact (rest_no_gap _ _ _ _ _ R)|exact Pg| |exact Sk].
  - constructor; cbn; try assumption; try reflexivity.
  - split; [reflexivity|split; assumption].
Qed.
(** More lines for the table. *)
Lemma merged_more ls ls' t : Forall good_hline (ls ++ ls') -> merged (map kv_of ls) (x_req t) -> merged (map kv_of (ls ++ ls')) (x_req (add_headers SReq (map ph_of ls') t)).
Proof.
  intros G M. induction ls' as [|l ls' IH] using rev_ind.
  - rewrite app_nil_r. exact M.
  - rewrite app_assoc in G |- *. apply Forall_app in G as [G Gl]. specialize (IH G). rewrite map_app. cbn [map]. rewrite (map_app ph_of). unfold add_headers in *. rewrite fold_left_app. cbn [map fold_left].
    change (x_req ?z) with (x_dir SReq z). rewrite add_header_dir.
    apply (merged_step SReq (map kv_of (ls ++ ls')) (mk_header (hl_name l) (hl_value l) _)); [exact IH| |cbn [hd_flags]; apply mask_clear; [apply header_flags_mask|reflexivity]].
    apply Forall_forall. intros x Hx. apply in_map_iff in Hx as (y & <- & Hy). rewrite Forall_forall in G. apply token_tight. apply (G y Hy).
Qed.
