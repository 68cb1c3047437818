(** Tunnels: the client goes on with requests. *)
From Verif Require Import Base Spec SpecTx SpecMsg SpecResp SpecConnect ModelUtil ModelBstr ModelParsers ModelHeaders ModelUri ModelState ModelTx ModelConn SpecConn ProofsBase ProofsBytes ProofsParsers ProofsHeaders ProofsTx ProofsConn ProofsCore ProofsLoop ProofsHist ProofsEval ProofsBody ProofsHead ProofsFrame ProofsStream ProofsChunk ProofsMsg ProofsRStream ProofsRHead ProofsRBody ProofsRMsg ProofsEnd ProofsClose.
From Verif Require Import ProofsConnect ProofsConnect2 ProofsConnect3.

(** * The handshake is over *)
Lemma ph_resume e n tr T z h t s s1 a rest k cb p : yes e -> granted n tr T z t s -> tunnelled h PHeaders t -> n + 1 < 2 ^ 64 ->
  mile StConnectProbe None p None n t tr (mk_ctx T (n + 1, s_resp s, false) (S z)) s1 -> s_txs s1 = s_txs s -> rest_of a rest k cb s1 -> handle_state SReq e s1 = state_request_complete e s1 ->
  exists s', step SReq e s1 = (ROk None, s') /\ rest_of a rest k cb s' /\
    resting p (n + 1) (tr_of [mk_ev HRequestComplete n PlNone; mk_ev HTransactionComplete n PlNone] tr)
      (mk_ctx (fun j => if j =? n then if c_auto_destroy (e_cfg e) then None else Some (completed_tx t) else T j) (n + 1, s_resp s, false) (if c_auto_destroy (e_cfg e) then z else S z)) s'.
Proof.
  intros Y Gd Tn Li M Ex R H. pose proof (gd_next _ _ _ _ _ _ Gd) as Nx. pose proof (gd_keys _ _ _ _ _ _ Gd) as Ky. rewrite <- Ex in Nx, Ky.
  destruct M as [M1 M2 M3 M4 M5 M6 M7 M8 M9 M10 M11 M12]. rewrite <- M7 in M8.
  rewrite (request_complete_eval e s1 t Y M8 (tn_cep _ _ _ Tn)) in H; [|rewrite (ta_progress _ _ _ (tn_asked _ _ _ Tn)); reflexivity|exact M4].
  assert (Hb : request_has_body t = false) by (unfold request_has_body; rewrite (tn_coding _ _ _ Tn); reflexivity).
  assert (Oc : is_complete (completed_tx t) = true).
  { unfold is_complete, completed_tx. rewrite Hb. cbn. rewrite (an_progress _ _ (tn_answered _ _ _ Tn)). reflexivity. }
  unfold completed in H. fold (completed_tx t) in H. rewrite Oc, Bool.andb_true_r, (tn_is09 _ _ _ Tn), Hb in H.
  assert (Wi : wadd (s_ridx s1) 1 = n + 1) by (rewrite M7; unfold wadd; apply N.mod_small; exact Li).
  assert (Pi : s_pidx s1 = n + 1) by (unfold outside in M10; cbn [cx_rest] in M10; congruence).
  replace (s_pidx s1 <? s_ridx s1) with false in H by (symmetry; lia).
  apply (step_next SReq) in H; [|exact (rest_no_gap _ _ _ _ _ R)|exact (live_not_tunnel _ M3)|discriminate].
  eexists. split; [exact H|]. split; [exact R|]. clear H. unfold push.
  assert (Ot : forall j, j <> n -> tx_get j (tx_set n (completed_tx t) (s_txs s1)) = T j) by (intros j Hj; rewrite tx_get_set_other by congruence; now apply M11).
  assert (Et : tx_get n (tx_set n (completed_tx t) (s_txs s1)) = Some (completed_tx t)) by (rewrite M7 in M8; apply (tx_get_set_eq _ _ _ _ M8)).
  assert (Ln : length (tx_set n (completed_tx t) (s_txs s1)) = length (s_txs s1)) by apply length_set.
  assert (Kn : NoDup (map fst (tx_set n (completed_tx t) (s_txs s1)))) by (rewrite keys_set; exact Ky).
  assert (Dl : S (length (tx_del n (tx_set n (completed_tx t) (s_txs s1)))) = length (s_txs s1)) by (rewrite <- Ln; apply length_del_lt; rewrite Et; discriminate).
  revert Ot Et Ln Kn Dl. generalize (completed_tx t) as tc. intros tc Ot Et Ln Kn Dl. rewrite M7 in Wi |- *. constructor; cbn; try assumption; try reflexivity; try (now left).
  - destruct (c_auto_destroy (e_cfg e)).
    + rewrite tx_get_del, Ot by lia. destruct Nx as [[N1 N2] | [N1 N2]]; [left|right]; (split; [exact N1|lia]).
    + rewrite Ot, Ln by lia. destruct Nx as [[N1 N2] | [N1 N2]]; [left|right]; (split; [exact N1|lia]).
  - now rewrite M9.
  - intros j Hj. destruct (j =? n) eqn:E.
    + apply N.eqb_eq in E. subst j. destruct (c_auto_destroy (e_cfg e)); [apply get_del, Kn|exact Et].
    + destruct (c_auto_destroy (e_cfg e)); [rewrite tx_get_del by lia|]; apply Ot; lia.
Qed.

(** * The first request after it *)
Lemma first_lf cs : In 10 (concat cs) -> exists q w r a b, cs = q ++ w :: r /\ w = a ++ 10 :: b /\ ~ In 10 (concat q ++ a).
Proof.
  induction cs as [|c cs IH]; cbn [concat]; intro I; [contradiction|]. destruct (in_dec N.eq_dec 10 c) as [J | J].
  - destruct (take_till_lf_spec c) as (_ & _). assert (K : exists a b, c = a ++ 10 :: b /\ ~ In 10 a).
    { clear - J. induction c as [|x c IH]; [contradiction|]. destruct (N.eq_dec x 10) as [-> | Nx]; [exists [], c; auto|].
      destruct IH as (a & b & -> & Na); [destruct J; [congruence|assumption]|]. exists (x :: a), b. split; [reflexivity|]. intros [K | K]; [congruence|contradiction]. }
    destruct K as (a & b & -> & Na). exists [], (a ++ 10 :: b), cs, a, b. auto.
  - destruct IH as (q & w & r & a & b & -> & -> & Na); [apply in_app_or in I as [I | I]; [contradiction|exact I]|]. exists (c :: q), (a ++ 10 :: b), r, a, b. split; [reflexivity|]. split; [reflexivity|].
    cbn [concat]. rewrite <- app_assoc. intro K. apply in_app_or in K as [K | K]; contradiction.
Qed.
Lemma lf_unique x y u v : x ++ 10 :: u = y ++ 10 :: v -> ~ In 10 x -> ~ In 10 y -> x = y /\ u = v.
Proof.
  revert y. induction x as [|c x IH]; intros [|d y] E Nx Ny; cbn [app] in E.
  - injection E as E. auto.
  - injection E as E1 E2. subst d. exfalso. apply Ny. now left.
  - injection E as E1 E2. subst c. exfalso. apply Nx. now left.
  - injection E as E1 E2. destruct (IH y E2) as [-> ->]; [intro; apply Nx; now right|intro; apply Ny; now right|]. subst. auto.
Qed.
Lemma line_first r p q : fair_request r -> p ++ 10 :: q = request_line_text r -> ~ In 10 p -> ~ In 0 p /\ q = [] /\ first_word (p ++ [10]) (rq_method r).
Proof.
  intros G E Np. destruct (line_no_lf r G) as (l & El & Nl). rewrite El in E. destruct (lf_unique p l q [] E Np Nl) as [-> ->].
  destruct G as (H1 & _ & H3 & _). destruct (method_visible _ H1) as [H4 H5]. unfold request_line_text in El.
  split; [|split; [reflexivity|]].
  - intro I. assert (J : In 0 (rq_method r ++ [32] ++ rq_target r ++ s2b " HTTP/1.1" ++ [13; 10])) by (rewrite El; apply in_or_app; now left).
    rewrite Forall_forall in H3, H5. apply in_app_or in J as [J | J]; [specialize (H5 _ J); unfold visible in H5; lia|]. apply in_app_or in J as [[J | []] | J]; [discriminate J|].
    apply in_app_or in J as [J | J]; [specialize (H3 _ J); lia|]. vm_compute in J. repeat (destruct J as [J | J]; [discriminate J|]). exact J.
  - exists [], ([32] ++ rq_target r ++ s2b " HTTP/1.1" ++ [13; 10]). split; [rewrite <- El; reflexivity|]. split; [constructor|]. split.
    + revert H5. apply Forall_impl. unfold visible, c_space, ascii_space. intros; lia.
    + split; [|intro Z; congruence]. intros c x Z. injection Z as <- _. unfold c_space, ascii_space. lia.
Qed.
Lemma good_fair r : good_request r -> fair_request r.
Proof. intros (H1 & _ & H2 & H3 & H4). split; [exact H1|]. auto. Qed.
(** The requests of a round that follows the handshake. *)
Lemma resume_calls e n tr T z h t s cs ms : yes e -> granted n tr T z t s -> tunnelled h PHeaders t -> grant (hk_reply h) ->
  Forall good_message ms -> ms <> [] -> Forall (fun m => blen (request_text (m_req m)) <= c_field_limit (e_cfg e) /\ blen (block_text (trailer_of (m_content m))) + 2 <= c_field_limit (e_cfg e)) ms ->
  n + 1 + N.of_nat (length ms) < 2 ^ 64 -> N.of_nat (if c_auto_destroy (e_cfg e) then z else S z) + N.of_nat (length ms) <= c_max_tx (e_cfg e) ->
  concat cs = texts ms -> ~ In [] cs -> clean ms cs [] ->
  exists s' C' tr', run_ops (reqs cs) e s = (ROk (more (reqs cs)), s') /\
    told (e_cfg e) (n + 1) (mk_ctx (fun j => if j =? n then if c_auto_destroy (e_cfg e) then None else Some (completed_tx t) else T j) (n + 1, s_resp s, false) (if c_auto_destroy (e_cfg e) then z else S z))
      (tr_of [mk_ev HRequestComplete n PlNone; mk_ev HTransactionComplete n PlNone] tr) ms (n + 1 + N.of_nat (length ms)) C' tr' /\
    resting [] (n + 1 + N.of_nat (length ms)) tr' C' s'.
Proof.
  intros Y Gd Tn Gr Gm Nm Lim Ix Sz Ec Ne Cl. set (C4 := mk_ctx (fun j => if j =? n then _ else T j) _ _). set (tr4 := tr_of _ tr).
  pose proof (gd_resp _ _ _ _ _ _ Gd) as (P1 & P2 & P3 & P4 & P5 & P6).
  assert (Aw : d_status (s_resp s) <> SsDataOther) by (destruct P3 as [-> | ->]; discriminate).
  assert (Rm : room e (n + 1) C4 ms).
  { constructor; cbn [cx_rest cx_size cx_table fst snd C4]; try assumption. intros j Hj. destruct (j =? n) eqn:E; [lia|]. apply (gd_free _ _ _ _ _ _ Gd). lia. }
  destruct ms as [|m ms]; [congruence|]. assert (Gr1 : fair_request (m_req m)) by (inversion_clear Gm as [|? ? G _]; apply good_fair, G).
  destruct (line_no_lf _ Gr1) as (l & El & Nl).
  assert (Et : texts (m :: ms) = request_line_text (m_req m) ++ after_line m ++ texts ms) by (rewrite texts_cons, message_text_line; now rewrite <- app_assoc).
  assert (I10 : In 10 (concat cs)) by (rewrite Ec, Et, El; apply in_or_app; left; apply in_or_app; right; now left).
  destruct (first_lf cs I10) as (quiet & w & later & a & b & -> & -> & Nq). rewrite concat_app in Ec. cbn [concat] in Ec. rewrite <- app_assoc in Ec.
  assert (Eq : (concat quiet ++ a) ++ 10 :: b ++ concat later = l ++ 10 :: after_line m ++ texts ms).
  { rewrite <- app_assoc. transitivity (texts (m :: ms)); [rewrite <- Ec; reflexivity|]. rewrite Et, El, <- app_assoc. reflexivity. }
  destruct (lf_unique _ _ _ _ Eq Nq Nl) as [Ea Eb]. assert (Er : (concat quiet ++ a) ++ [10] = request_line_text (m_req m)) by (rewrite Ea, El; reflexivity).
  destruct (line_first _ _ [] Gr1 Er Nq) as (Nz & _ & Fw).
  assert (Ll : blen ((concat quiet ++ a) ++ [10]) <= c_field_limit (e_cfg e)).
  { rewrite Er. inversion_clear Lim as [|? ? [L1 _] _]. etransitivity; [|exact L1]. unfold request_text, blen. rewrite !app_length. lia. }
  assert (Pc : t_prog (x_resp t) = PComplete) by apply Tn. assert (Sn : x_statusn t = RnValid (rp_status (hk_reply h))) by apply Tn. assert (Rg : 200 <= rp_status (hk_reply h) <= 299) by apply Gr.
  set (C := mk_ctx T (n + 1, s_resp s, false) (S z)).
  destruct (probing_calls e n tr C t _ Aw Pc Sn Rg quiet [] s) as (s1 & H1 & Pr & X1).
  { intro I. apply Ne. apply in_or_app. now left. }
  { intro I. apply Nq. apply in_or_app. now left. }
  { intro I. apply Nz. apply in_or_app. now left. }
  { cbn [app]. unfold blen in *. rewrite !app_length in Ll. lia. }
  { left. split; [reflexivity|]. exact (gd_wait _ _ _ _ _ _ Gd). }
  cbn [app] in Pr. destruct (probing_opened e n tr C t _ Aw Pc Sn Rg (concat quiet) (a ++ 10 :: b) s1 Pr) as (s2 & H2 & R2 & M2 & X2).
  destruct (probing_bufsum e n tr C t _ Rg (concat quiet) s1 Pr) as [Bs Lv]; [unfold blen in *; rewrite !app_length in Ll; lia|].
  pose proof (probe_found e n tr C t _ Rg s2 _ (concat quiet) a 10 b 0 0 M2 R2 (or_introl eq_refl)) as H3.
  specialize (H3 ltac:(intro I; apply Nq; apply in_or_app; now right) ltac:(intro I; apply Nz; apply in_or_app; now right) ltac:(rewrite app_assoc; exact Ll)).
  rewrite app_assoc, (line_method_word _ _ Fw) in H3. destruct (is_unknown (method_new (rq_method (m_req m)))) eqn:U.
  { exfalso. rewrite (proj2 (word_known _) (proj1 Gr1)) in U. discriminate U. }
  destruct (ph_resume e n tr T z h t s s2 _ _ _ _ _ Y Gd Tn ltac:(lia) M2 ltac:(congruence) R2 H3) as (s3 & H4 & R4 & Q4). fold C4 tr4 in Q4.
  destruct (idle_goes_all e (m :: ms) Y (n + 1) C4 tr4 (concat quiet) s3 (a ++ 10 :: b) (a ++ 10 :: b) 0 0 (concat later)) as (s4 & done & ms' & i' & C' & tr' & G5 & E5 & T5 & Pa); [exact Rm| |exact Q4|exact R4| | |destruct a; discriminate|].
  { intros before m0 after y Em Hy. pose proof (Cl (quiet ++ [a ++ 10 :: b]) later before m0 after y) as K. rewrite <- app_assoc, app_nil_r in K. now apply K. }
  { exists (a ++ [10]). split; [rewrite app_assoc; exact Er|destruct a; discriminate]. }
  { rewrite <- Ec, <- app_assoc. reflexivity. }
  assert (H5 : data_call SReq (pd_slice (a ++ 10 :: b)) e s1 = (ROk SsData, s4)).
  { apply runs_data_call; [destruct a; discriminate|exact Bs|exact Lv|]. destruct H2 as [-> | H2]; [|eapply runs_next; [exact H2|]]; (eapply runs_next; [exact H4|exact G5]). }
  rewrite E5 in Rm. pose proof (told_room _ _ _ _ _ _ _ _ _ T5 Rm) as Rm'. rewrite <- (app_nil_r (concat later)) in Pa.
  destruct (stream_calls e later Y i' C' tr' ms' [] s4 Rm') as (s5 & d2 & ms2 & i2 & C2 & tr2 & H6 & E6 & T6 & Pb); [intro I; apply Ne; apply in_or_app; right; now right| |exact Pa|].
  { intros c d Ecd _. apply (clean_drop done). rewrite <- E5. intros before m0 after y Em Hy. apply (Cl (quiet ++ (a ++ 10 :: b) :: c) d before m0 after y); [|exact Em|exact Hy]. rewrite <- app_assoc, Ecd. reflexivity. }
  apply paused_end in Pb as [-> Q6]. rewrite app_nil_r in E6. subst d2. pose proof (told_app _ _ _ _ _ _ _ _ _ _ _ T5 T6) as T7. rewrite <- E5 in T7.
  destruct (told_facts _ _ _ _ _ _ _ T7) as (Ei & _). subst i2. exists s5, C2, tr2. split; [|split; [exact T7|exact Q6]].
  unfold reqs, more in *. rewrite map_app. cbn [map]. erewrite run_ops_app; [|exact H1|]; [rewrite map_app; cbn [map]; reflexivity|].
  cbn [run_ops]. unfold bind at 1. cbn [run_op]. unfold bind at 1. rewrite H5. unfold ret at 1. unfold bind at 1. rewrite H6. rewrite map_map. reflexivity.
Qed.
(** * The answers of a round whose requests have been read *)
Lemma answers_run e n tr C0 rd s1 C1 tr1 : yes e -> let r := snd (fst (cx_rest C0)) in let xs := rd_exchanges rd in let d := c_auto_destroy (e_cfg e) in
  cx_rest C0 = (n, r, false) -> (forall j, n < j -> cx_table C0 j = None) ->
  d_state r = StIdle /\ (d_prev r = StIdle \/ d_prev r = StNone) /\ rlive (d_status r) /\ d_recv r = None /\ d_buf r = [] /\ d_header r = None ->
  good_round rd -> Forall (line_limits e) xs -> n + N.of_nat (length xs) < 2 ^ 64 ->
  told (e_cfg e) n C0 tr (rd_asked rd) (n + N.of_nat (length xs)) C1 tr1 -> resting [] (n + N.of_nat (length xs)) tr1 C1 s1 -> NoDup (map fst (s_txs s1)) ->
  exists s' T' es1 es2, run_ops (resps (rd_down rd)) e s1 = (ROk (more (resps (rd_down rd))), s') /\
    stream_events (e_cfg e) n (rd_asked rd) es1 /\ reply_events n (rd_answers rd) es2 /\
    level (n + N.of_nat (length xs)) (tr_of (es1 ++ es2) tr) T' (if d then cx_size C0 else (cx_size C0 + length xs)%nat) s' /\
    (forall j, j < n -> T' j = cx_table C0 j) /\ (forall k x, nth_error xs k = Some x -> over d T' (n + N.of_nat k) x).
Proof.
  intros Y r xs d Er Lf (P1 & P2 & P3 & P4 & P5 & P6) (G & Eu & Nu & Cu & Ed & Nd & Cd & Ad) Lim Ix T1 Q1 K1. fold xs in G. set (z := cx_size C0).
  assert (Ln : length (rd_asked rd) = length xs) by apply map_length.
  destruct (told_facts _ _ _ _ _ _ _ T1) as (Ei & (es1 & -> & Se) & Tx & Ti). destruct (told_more _ _ _ _ _ _ _ T1) as (Tm & Tr & Ts). rewrite Ln in *. clear Ei.
  rewrite Er in Tr. fold z in Ts.
  destruct Q1 as [D1 D2 D3 D4 D5 D6 D7 D8 D9 D10 D11]. rewrite Tr in D10. unfold outside in D10. injection D10 as O1 O2 O3.
  set (C2 := mk_ctx (fun j => tx_get j (s_txs s1)) (n + N.of_nat (length xs), s_req s1, false) (length (s_txs s1))).
  assert (Qr : rresting [] n (tr_of es1 tr) C2 s1) by (constructor; rewrite ?O2; try assumption; [left; split; [reflexivity|split; [exact K1|apply Nat.le_refl]]|unfold r_outside, C2; cbn [cx_rest]; congruence|reflexivity]).
  assert (R2 : rroom e n C2 xs).
  { constructor; [exact G| |exact Ix|reflexivity|].
    - apply Forall_forall. intros x I. rewrite Forall_forall in Lim. destruct (Lim x I) as (_ & _ & L). exact L.
    - intros k x Hk. destruct (Tx k (fst x)) as (t & Ht & Ho); [unfold rd_asked; now apply map_nth_error|]. exists t. split; [|exact (holds_awaits _ _ Ho)]. unfold C2. cbn [cx_table]. rewrite D11; [exact Ht|].
      assert (k < length xs)%nat by (apply nth_error_Some; congruence). lia. }
  pose proof (ra_idle n C2 (tr_of es1 tr) xs s1 Qr) as P. replace (xtexts xs) with (concat (rd_down rd) ++ []) in P by (rewrite app_nil_r, Ed; reflexivity).
  destruct (rstream_calls e (rd_down rd) Y n C2 (tr_of es1 tr) xs [] s1 R2 Nd) as (s2 & done & xs' & i2 & C3 & tr2 & H2 & E2 & T2 & Q2); [| |exact P|].
  { intros a b Eab _ before x after y Em Hy. rewrite Em in *. apply (Cd a b (map snd before) (snd x) (map snd after) y Eab); [|exact Hy]. unfold rd_answers. fold xs. rewrite Em. now rewrite map_app. }
  { intros a c b Eab before x after y tl Em Hb -> Ny Et. apply (Ad a y tl b (map snd before) (snd x) (map snd after) Eab Ny); [|exact Hb|exact Et]. unfold rd_answers. fold xs. rewrite Em. now rewrite map_app. }
  apply rpaused_end in Q2 as [-> Q2]. rewrite app_nil_r in E2. subst done. destruct (rtold_facts _ _ _ _ _ _ _ _ T2) as (Ei & (es2 & -> & Re) & Ux & Ui & Ur & Us). subst i2. unfold C2 in Ux, Ui, Ur, Us. cbn [cx_rest cx_size cx_table] in Ux, Ui, Ur, Us. fold d in Ux, Us. clear P R2 Qr.
  pose proof (keys_run (map (fun c => OpResp (pd_slice c)) (rd_down rd)) e s1 K1) as K2. rewrite H2 in K2. cbn [snd] in K2.
  destruct Q2 as [F1 F2 F3 F4 F5 F6 F7 F8 F9 F10 F11]. rewrite Ur in F10. unfold r_outside in F10. injection F10 as V1 V2 V3.
  exists s2, (cx_table C3), es1, es2. split; [|split; [exact Se|split; [exact Re|split; [|split]]]].
  - unfold resps, more. rewrite map_map. exact H2.
  - constructor; [|repeat split; assumption| |exact K2].
    + constructor; rewrite ?V2; try assumption.
      * cbn [cx_size]. rewrite Ui in F8 by lia. assert (W : (length (s_txs s1) <= (if tx_get (n + N.of_nat (length xs)) (s_txs s1) then 1 else 0) + (z + length xs))%nat) by (destruct D8 as [[D8 D8'] | [D8 D8']]; rewrite D8; lia).
        destruct F8 as [(F8 & _ & F8') | (F8 & F8' & _ & F8'')].
        { rewrite F8. destruct D8 as [[D8 _] | [D8 _]]; rewrite D8 in *; [left|right]; (split; [reflexivity|]); destruct d; lia. }
        { rewrite F8 in W. left. split; [exact F8'|]. destruct d; lia. }
      * rewrite tr_of_app. exact F9.
      * unfold outside. cbn [cx_rest]. congruence.
    + intros j Hj. rewrite Ui by lia. rewrite D11 by lia. rewrite Tm by lia. apply Lf. lia.
  - intros j Hj. rewrite Ui by lia. rewrite D11 by lia. now apply Ti.
  - intros k x Hk. exact (Ux k x Hk).
Qed.
(** * The first round after the handshake *)
Definition over_events (n : N) : list event := [mk_ev HRequestComplete n PlNone; mk_ev HTransactionComplete n PlNone].
Lemma tunnelled_over h t : tunnelled h PHeaders t -> tunnelled h PComplete (completed_tx t).
Proof.
  intros [[A1 A2 A3 A4 A5 A6 A7 A8 A9] B1 C1 C2 C3]. unfold completed_tx, request_has_body. rewrite C2. destruct B1. constructor; [constructor|constructor| | |]; try assumption; reflexivity.
Qed.
Lemma resume_runs e n tr T z h t s rd : yes e -> granted n tr T z t s -> tunnelled h PHeaders t -> grant (hk_reply h) -> good_round rd -> rd_exchanges rd <> [] -> Forall (line_limits e) (rd_exchanges rd) ->
  let d := c_auto_destroy (e_cfg e) in let z1 := if d then z else S z in let len := length (rd_exchanges rd) in
  n + 1 + N.of_nat len < 2 ^ 64 -> N.of_nat z1 + N.of_nat len <= c_max_tx (e_cfg e) ->
  exists s' T' es1 es2, run_ops (round_ops rd) e s = (ROk (more (round_ops rd)), s') /\
    stream_events (e_cfg e) (n + 1) (rd_asked rd) es1 /\ reply_events (n + 1) (rd_answers rd) es2 /\
    level (n + 1 + N.of_nat len) (tr_of (over_events n ++ es1 ++ es2) tr) T' (if d then z1 else (z1 + len)%nat) s' /\
    (forall j, j < n -> T' j = T j) /\ (if d then T' n = None else exists t', T' n = Some t' /\ tunnelled h PComplete t') /\
    (forall k x, nth_error (rd_exchanges rd) k = Some x -> over d T' (n + 1 + N.of_nat k) x).
Proof.
  intros Y Gd Tn Gr Gx Nx Lim d z1 len Ix Sz. assert (Ln : length (rd_asked rd) = len) by apply map_length.
  destruct Gx as (G & Eu & Nu & Cu & rest). assert (Gx : good_round rd) by (repeat split; try assumption; apply rest).
  destruct (resume_calls e n tr T z h t s (rd_up rd) (rd_asked rd) Y Gd Tn Gr) as (s1 & C1 & tr1 & H1 & T1 & Q1).
  { apply Forall_forall. intros m I. apply in_map_iff in I as (x & <- & I). rewrite Forall_forall in G. now apply G. }
  { intro Z. apply map_eq_nil in Z. contradiction. }
  { apply Forall_forall. intros m I. apply in_map_iff in I as (x & <- & I). rewrite Forall_forall in Lim. destruct (Lim x I) as (L1 & L2 & _). now split. }
  { rewrite Ln. exact Ix. } { rewrite Ln. exact Sz. } { exact Eu. } { exact Nu. } { exact Cu. }
  rewrite Ln in T1, Q1. pose proof (keys_run (reqs (rd_up rd)) e s (gd_keys _ _ _ _ _ _ Gd)) as K1. rewrite H1 in K1. cbn [snd] in K1.
  match type of T1 with told _ _ ?c ?r _ _ _ _ => set (C0 := c) in *; set (tr0 := r) in * end.
  destruct (answers_run e (n + 1) tr0 C0 rd s1 C1 tr1 Y eq_refl) as (s2 & T2 & es1 & es2 & H2 & S1 & S2 & L2 & O2 & X2); try eassumption.
  { cbn [cx_table C0]. intros j Hj. destruct (j =? n) eqn:E; [lia|]. now apply (gd_free _ _ _ _ _ _ Gd). }
  { exact (gd_resp _ _ _ _ _ _ Gd). }
  unfold C0 in *. cbn [cx_table cx_size] in *. exists s2, T2, es1, es2. split; [|split; [exact S1|split; [exact S2|split; [|split; [|split]]]]].
  - change (round_ops rd) with (reqs (rd_up rd) ++ resps (rd_down rd)). rewrite (run_ops_app _ _ _ _ _ _ _ _ H1 H2). unfold more. now rewrite map_app.
  - rewrite tr_of_app. exact L2.
  - intros j Hj. rewrite O2 by lia. destruct (j =? n) eqn:E; [lia|reflexivity].
  - rewrite O2 by lia. rewrite N.eqb_refl. fold d. destruct d; [reflexivity|]. exists (completed_tx t). split; [reflexivity|now apply tunnelled_over].
  - exact X2.
Qed.
(** * Whole histories *)
Definition done_with (e : env) (s : st) (first : N) (rds : list round) : Prop :=
  forall k m r, nth_error (exchanges rds) k = Some (m, r) ->
    if c_auto_destroy (e_cfg e) then tx_get (first + N.of_nat k) (s_txs s) = None else exists t, tx_get (first + N.of_nat k) (s_txs s) = Some t /\ asked m t /\ answered r t.
Definition tunnelled_run (e : env) (before : list round) (h : handshake) (quiet : list bytes) (w : bytes) (later : list op) : Prop :=
  exists s es1 es2, history e (conversation before ++ handshake_ops h ++ reqs quiet ++ OpReq (pd_slice w) :: later) = (ROk (all_calls before ++ more (handshake_ops h ++ reqs quiet) ++ Some SsTunnel :: map (fun _ => Some SsTunnel) later), s) /\
    events s = es1 ++ es2 /\ conversation_events (e_cfg e) 0 before es1 /\ handshake_events (N.of_nat (length (exchanges before))) h es2 /\
    done_with e s 0 before /\
    exists t, tx_get (N.of_nat (length (exchanges before))) (s_txs s) = Some t /\ tunnel_asked (hk_request h) PHeaders t /\ answered (hk_reply h) t.
Lemma granted_runs e before h after : yes e -> Forall good_round before -> good_handshake h -> tunnel_fits e before h after ->
  exists s T z t es1 es2, let n := N.of_nat (length (exchanges before)) in history e (conversation before ++ handshake_ops h) = (ROk (all_calls before ++ more (handshake_ops h)), s) /\
    conversation_events (e_cfg e) 0 before es1 /\ handshake_events n h es2 /\ granted n (tr_of (es1 ++ es2) []) T z t s /\ tunnelled h PHeaders t /\
    (forall k x, nth_error (exchanges before) k = Some x -> over (c_auto_destroy (e_cfg e)) T (N.of_nat k) x) /\ z = (if c_auto_destroy (e_cfg e) then 0 else length (exchanges before))%nat.
Proof.
  intros Y G Gh ((F1 & F2 & F3) & _ & B1 & B2 & B3 & B4). destruct (open_level e) as (s0 & H0 & L0).
  destruct (talk_runs_size e before Y 0 [] _ 0%nat s0 L0 G F1 F2 F3) as (s1 & T1 & z & es1 & H1 & Ce & L & _ & X & Z). rewrite N.add_0_l in L.
  destruct (handshake_runs e _ _ _ _ _ h Y L Gh B1 B2) as (s2 & T2 & t & es2 & H2 & He & Gd & Tn & O2); [lia|rewrite Z; destruct (c_auto_destroy _); lia|].
  exists s2, T2, z, t, es1, es2. split; [|split; [exact Ce|split; [exact He|split; [now rewrite tr_of_app|split; [exact Tn|split; [|exact Z]]]]]].
  - unfold history, conversation, all_calls. cbn [run_ops app map]. unfold bind at 1. rewrite H0. unfold bind at 1. rewrite (run_ops_app _ _ _ _ _ _ _ _ H1 H2). reflexivity.
  - intros k x Hk. specialize (X k x Hk). rewrite N.add_0_l in X. unfold over in *. rewrite O2; [exact X|]. assert (k < length (exchanges before))%nat by (apply nth_error_Some; congruence). lia.
Qed.
(** The same, however the handshake went. *)
Definition tunnelled_after (e : env) (before : list round) (h : handshake) (hops : list op) (hres : list (option sstate)) (quiet : list bytes) (w : bytes) (later : list op) : Prop :=
  exists s es1 es2, history e (conversation before ++ hops ++ reqs quiet ++ OpReq (pd_slice w) :: later) = (ROk (all_calls before ++ (hres ++ more (reqs quiet)) ++ Some SsTunnel :: map (fun _ => Some SsTunnel) later), s) /\
    events s = es1 ++ es2 /\ conversation_events (e_cfg e) 0 before es1 /\ handshake_events (N.of_nat (length (exchanges before))) h es2 /\
    done_with e s 0 before /\
    exists t, tx_get (N.of_nat (length (exchanges before))) (s_txs s) = Some t /\ tunnel_asked (hk_request h) PHeaders t /\ answered (hk_reply h) t.
Definition granted_after (e : env) (before : list round) (h : handshake) (hops : list op) (hres : list (option sstate)) : Prop :=
  exists s T z t es1 es2, let n := N.of_nat (length (exchanges before)) in history e (conversation before ++ hops) = (ROk (all_calls before ++ hres), s) /\
    conversation_events (e_cfg e) 0 before es1 /\ handshake_events n h es2 /\ granted n (tr_of (es1 ++ es2) []) T z t s /\ tunnelled h PHeaders t /\
    (forall k x, nth_error (exchanges before) k = Some x -> over (c_auto_destroy (e_cfg e)) T (N.of_nat k) x) /\ z = (if c_auto_destroy (e_cfg e) then 0 else length (exchanges before))%nat.
Lemma tunnelled_after_yes e before h hops hres quiet w later line word : granted_after e before h hops hres -> good_handshake h -> ~ In [] quiet -> first_text quiet w line -> blen line <= c_field_limit (e_cfg e) ->
  first_word line word -> ~ In word known_methods -> Forall traffic later -> tunnelled_after e before h hops hres quiet w later.
Proof.
  intros (s & T & zz & t & es1 & es2 & H & Ce & He & Gd & Tn & X & _) Gh Ne (a & z & b & Ew & Hz & N1 & N0 & El) Ll Fw Nk Tf.
  set (n := N.of_nat (length (exchanges before))) in *. set (tr := tr_of (es1 ++ es2) []) in *. set (C := mk_ctx T (n + 1, s_resp s, false) (S zz)).
  pose proof (gd_resp _ _ _ _ _ _ Gd) as (P1 & P2 & P3 & P4 & P5 & P6).
  assert (Aw : d_status (s_resp s) <> SsDataOther) by (destruct P3 as [-> | ->]; discriminate).
  assert (Pc : t_prog (x_resp t) = PComplete) by apply Tn. assert (Sn : x_statusn t = RnValid (rp_status (hk_reply h))) by apply Tn. assert (Rg : 200 <= rp_status (hk_reply h) <= 299) by apply Gh.
  destruct (probing_calls e n tr C t _ Aw Pc Sn Rg quiet [] s Ne) as (s1 & H1 & Pr & X1).
  { intro I. apply N1. apply in_or_app. now left. } { intro I. apply N0. apply in_or_app. now left. }
  { cbn [app]. rewrite El in Ll. unfold blen in *. rewrite !app_length in Ll. lia. } { left. split; [reflexivity|]. exact (gd_wait _ _ _ _ _ _ Gd). }
  cbn [app] in Pr. rewrite El in Ll, Fw.
  destruct (tunnel_call e n tr C t _ Aw Pc Sn Rg (concat quiet) s1 w a z b word Pr Ew Hz) as (s2 & H2 & U2 & Tr2 & X2); try assumption.
  { intro I. apply N1. apply in_or_app. now right. } { intro I. apply N0. apply in_or_app. now right. }
  destruct (traffic_runs e _ Rg later s2 Tf U2) as (s3 & H3 & Tr3 & X3).
  exists s3, es1, es2. assert (Ex : s_txs s3 = s_txs s) by congruence. pose proof (gd_wait _ _ _ _ _ _ Gd) as W.
  split; [|split; [|split; [exact Ce|split; [exact He|split]]]].
  - unfold history in *. rewrite app_assoc. erewrite run_ops_app; [|exact H|erewrite run_ops_app; [reflexivity|exact H1|]].
    + rewrite <- !app_assoc. reflexivity.
    + cbn [run_ops]. unfold bind at 1. cbn [run_op]. unfold bind at 1. rewrite H2. unfold ret at 1. unfold bind at 1. rewrite H3. reflexivity.
  - apply events_tr_of. rewrite Tr3; exact Tr2.
  - intros k m r Hk. rewrite Ex. assert (k < length (exchanges before))%nat by (apply nth_error_Some; congruence). specialize (X k (m, r) Hk). unfold over in X. rewrite N.add_0_l. rewrite (wt_others _ _ _ _ _ W) by lia. exact X.
  - exists t. rewrite Ex. split; [exact (wt_tx _ _ _ _ _ W)|]. split; apply Tn.
Qed.
Lemma tunnelled_run_yes e before h quiet w later line word : yes e -> Forall good_round before -> good_handshake h -> tunnel_fits e before h [] -> ~ In [] quiet -> first_text quiet w line -> blen line <= c_field_limit (e_cfg e) ->
  first_word line word -> ~ In word known_methods -> Forall traffic later -> tunnelled_run e before h quiet w later.
Proof.
  intros Y G Gh F Ne Ft Ll Fw Nk Tf. pose proof (tunnelled_after_yes e before h _ _ quiet w later line word (granted_runs e before h [] Y G Gh F) Gh Ne Ft Ll Fw Nk Tf) as H.
  unfold tunnelled_run. unfold more. rewrite map_app. exact H.
Qed.
Lemma done_mute e s s' i rds : s_txs s = s_txs s' -> done_with (mute e) s' i rds -> done_with e s i rds.
Proof. intros E H k m r Hk. rewrite E. exact (H k m r Hk). Qed.
Lemma tunnel_run e before h quiet w later line word : accepting e -> Forall good_round before -> good_handshake h -> tunnel_fits e before h [] -> ~ In [] quiet -> first_text quiet w line -> blen line <= c_field_limit (e_cfg e) ->
  first_word line word -> ~ In word known_methods -> Forall traffic later -> tunnelled_run e before h quiet w later.
Proof.
  intros A G Gh F Ne Ft Ll Fw Nk Tf. destruct (tunnelled_run_yes (mute e) before h quiet w later line word (yes_mute e) G Gh F Ne Ft Ll Fw Nk Tf) as (s & es1 & es2 & H & Ee & Ce & He & D & t & Ht & Ta).
  match type of H with history _ ?l = _ => destruct (history_mute e l A) as [H1 H2] end. rewrite H in H1, H2. cbn [fst snd] in H1, H2. apply similar_txs in H2 as [H2 H3].
  match type of H with history _ ?l = _ => exists (snd (history e l)) end. exists es1, es2. split; [rewrite <- H1; apply surjective_pairing|]. rewrite H3. split; [exact Ee|]. split; [now apply conversation_events_mute|]. split; [exact He|].
  split; [eapply done_mute; [exact H2|exact D]|]. exists t. rewrite H2. auto.
Qed.
Definition resumed_run (e : env) (before : list round) (h : handshake) (after : list round) : Prop :=
  let n := N.of_nat (length (exchanges before)) in
  exists s es1 es2 es3, history e (conversation before ++ handshake_ops h ++ concat (map round_ops after)) = (ROk (all_calls before ++ more (handshake_ops h ++ concat (map round_ops after))), s) /\
    events s = es1 ++ es2 ++ [mk_ev HRequestComplete n PlNone; mk_ev HTransactionComplete n PlNone] ++ es3 /\
    conversation_events (e_cfg e) 0 before es1 /\ handshake_events n h es2 /\ conversation_events (e_cfg e) (n + 1) after es3 /\
    done_with e s 0 before /\ done_with e s (n + 1) after /\
    if c_auto_destroy (e_cfg e) then tx_get n (s_txs s) = None else exists t, tx_get n (s_txs s) = Some t /\ tunnel_asked (hk_request h) PComplete t /\ answered (hk_reply h) t.
Lemma resumed_run_yes e before h rd rds : yes e -> Forall good_round before -> good_handshake h -> Forall good_round (rd :: rds) -> rd_exchanges rd <> [] -> tunnel_fits e before h (rd :: rds) -> resumed_run e before h (rd :: rds).
Proof.
  intros Y G Gh Ga Nx F. destruct (granted_runs e before h (rd :: rds) Y G Gh F) as (s & T & zz & t & es1 & es2 & H & Ce & He & Gd & Tn & X & Z).
  set (n := N.of_nat (length (exchanges before))) in *. destruct F as (_ & (F1 & F2 & F3) & _ & _ & B3 & B4). inversion_clear Ga as [|? ? Ga1 Ga2].
  assert (Ex : exchanges (rd :: rds) = rd_exchanges rd ++ exchanges rds) by reflexivity. rewrite Ex in F1, F2, B3, B4. rewrite app_length in F2, B3, B4. apply Forall_app in F1 as [F1 F1'].
  destruct (resume_runs e n _ T zz h t s rd Y Gd Tn ltac:(apply Gh) Ga1 Nx F1) as (s1 & T1 & ea & eb & H1 & S1 & S2 & L1 & O1 & Xn & X1).
  { fold n in B3. lia. }
  { rewrite Z. destruct (c_auto_destroy (e_cfg e)); [inversion_clear F3; lia|lia]. }
  destruct (talk_runs_size e rds Y _ _ _ _ _ L1 Ga2 F1') as (s2 & T2 & z2 & ec & H2 & C2 & L2 & O2 & X2 & _).
  { fold n in B3. lia. }
  { rewrite Z. destruct (c_auto_destroy (e_cfg e)); [inversion_clear F3; assumption|lia]. }
  set (d := c_auto_destroy (e_cfg e)) in *. destruct L2 as [Lq _ _ _].
  assert (Tg : forall j, j < n + 1 + N.of_nat (length (exchanges (rd :: rds))) -> tx_get j (s_txs s2) = T2 j).
  { intros j Hj. apply (rs_others _ _ _ _ _ Lq). rewrite Ex, app_length in Hj. lia. }
  exists s2, es1, es2, (ea ++ eb ++ ec). split; [|split; [|split; [exact Ce|split; [exact He|split; [|split; [|split]]]]]].
  - unfold history in *. rewrite app_assoc. cbn [map concat]. erewrite run_ops_app; [|exact H|erewrite run_ops_app; [reflexivity|exact H1|exact H2]].
    unfold more. rewrite !map_app, <- !app_assoc. reflexivity.
  - apply events_tr_of. rewrite (rs_trace _ _ _ _ _ Lq). rewrite <- !tr_of_app. f_equal. rewrite <- !app_assoc. reflexivity.
  - now apply cv_cons.
  - intros k m r Hk. assert (k < length (exchanges before))%nat by (apply nth_error_Some; congruence). rewrite N.add_0_l, Tg by lia. rewrite O2, O1 by lia. exact (X k (m, r) Hk).
  - intros k m r Hk. assert (Lk : (k < length (exchanges (rd :: rds)))%nat) by (apply nth_error_Some; congruence). rewrite Tg by lia. fold d. rewrite Ex in Hk.
    destruct (Nat.lt_ge_cases k (length (rd_exchanges rd))) as [Lk' | Lk'].
    + rewrite nth_error_app1 in Hk by exact Lk'. rewrite O2 by lia. exact (X1 k (m, r) Hk).
    + rewrite nth_error_app2 in Hk by exact Lk'. specialize (X2 _ _ Hk). replace (n + 1 + N.of_nat (length (rd_exchanges rd)) + N.of_nat (k - length (rd_exchanges rd))) with (n + 1 + N.of_nat k) in X2 by lia. exact X2.
  - rewrite Tg, O2 by lia. fold d. destruct d; [exact Xn|]. destruct Xn as (t' & E' & Tn'). exists t'. split; [exact E'|]. split; apply Tn'.
Qed.
Lemma resume_run e before h rd rds : accepting e -> Forall good_round before -> good_handshake h -> Forall good_round (rd :: rds) -> rd_exchanges rd <> [] -> tunnel_fits e before h (rd :: rds) -> resumed_run e before h (rd :: rds).
Proof.
  intros A G Gh Ga Nx F. destruct (resumed_run_yes (mute e) before h rd rds (yes_mute e) G Gh Ga Nx F) as (s & es1 & es2 & es3 & H & Ee & Ce & He & Ca & D1 & D2 & Xn).
  match type of H with history _ ?l = _ => destruct (history_mute e l A) as [H1 H2] end. rewrite H in H1, H2. cbn [fst snd] in H1, H2. apply similar_txs in H2 as [H2 H3].
  match type of H with history _ ?l = _ => exists (snd (history e l)) end. exists es1, es2, es3. split; [rewrite <- H1; apply surjective_pairing|]. rewrite H3. split; [exact Ee|].
  split; [now apply conversation_events_mute|]. split; [exact He|]. split; [now apply conversation_events_mute|].
  split; [eapply done_mute; [exact H2|exact D1]|]. split; [eapply done_mute; [exact H2|exact D2]|]. rewrite H2. exact Xn.
Qed.
