(** The loop of a data call, and whole histories: no fault, position and buffer invariants. *)
From Verif Require Import Base ModelState ModelTx ModelConn Spec SpecConn.
From Verif Require Import ProofsBase ProofsParsers ProofsHeaders ProofsConn ProofsCore ProofsStep ProofsStepResp.

Section Loop.
Variable e : env.
Variable sd : side.

(** What holds between the iterations of a loop that began with [p0] and [o0]. *)
Definition running (p0 : pdata) (o0 : dir) (c : core) : Prop :=
  ok_core e c /\ (d_status (k_d c) = SsClosed -> pd_gap (k_p c) = None /\ total (k_p c) = 0) /\
  set_pd_pos 0 (k_p c) = set_pd_pos 0 p0 /\ others (k_o c) = others o0 /\
  hold sd o0 (k_o c).
Definition load (c : core) : N := weight sd (k_d c) (avail (k_p c)).
Definition stepped (p0 : pdata) (o0 : dir) (w : N) (r : res (option sstate)) (c : core) : Prop :=
  nofault r /\ running p0 o0 c /\
  match r with
  | ROk None => load c < w
  | ROk (Some x) => d_status (k_d c) <> SsClosed /\ (x = d_status (k_d c) \/ x = SsClosed)
  | _ => False
  end.

Lemma step_handler c : ready e sd c -> wpc sd e (handle_state sd) c (good e sd c).
Proof. destruct sd; [apply step_request|apply step_response]. Qed.

Lemma pos_total p q : set_pd_pos 0 p = set_pd_pos 0 q -> pd_gap p = pd_gap q /\ total p = total q.
Proof. intro H. destruct p, q. cbn in H. injection H as -> -> ->. split; reflexivity. Qed.

Lemma wpc_after_step p0 o0 w c rc : running p0 o0 c -> (forall a, rc = inl a -> load c < w) ->
  wpc sd e (after_step sd rc) c (stepped p0 o0 w).
Proof.
  intros R L. assert (S : forall x, x <> SsClosed -> running p0 o0 (mk_core (set_d_status x (k_d c)) (k_p c) (k_o c) (k_h c))).
  { intros x Nx. destruct R as ((W & C & B) & Cl & P & O & Oc). split; [split; [exact W|split; [exact C|exact B]]|].
    split; [intro; kred; congruence|]. split; [exact P|split; [exact O|exact Oc]]. }
  assert (F : forall x h, x <> SsClosed ->
    stepped p0 o0 w (ROk (Some x)) (mk_core (set_d_status x (k_d c)) (k_p c) (k_o c) h)).
  { intros x h Nx. split; [split; discriminate|]. split; [exact (S x Nx)|]. kred. auto. }
  assert (U : forall x c', k_d c' = k_d c -> k_p c' = k_p c -> k_o c' = k_o c -> x <> SsClosed ->
    wpc sd e (set_status sd x ;; ret (Some x)) c' (stepped p0 o0 w)).
  { intros x c' E1 E2 E3 Nx. wstep. unfold set_status. apply wpc_upd; [reflexivity|]. wstep. rewrite E1, E2, E3. apply F, Nx. }
  unfold after_step. destruct rc as [a|x].
  - wstep. split; [split; discriminate|]. split; [exact R|]. apply (L a). reflexivity.
  - destruct x.
    all: try (apply U; try reflexivity; discriminate).
    + wstep. wstep. wstep; (apply U; try reflexivity; discriminate).
    + wstep. wstep. cbv zeta. apply U; try reflexivity. destruct (pd_is_empty _); discriminate.
    + wstep. wstep. wstep; (apply U; try reflexivity; discriminate).
Qed.
Lemma wpc_step p0 o0 c : running p0 o0 c -> wpc sd e (step sd) c (stepped p0 o0 (load c)).
Proof.
  intros R. unfold step. wstep. wstep. wstep. apply wpc_get_d. intro v. cbv beta iota. simp_in. cbn [set_d_recv d_state].
  destruct (pd_is_gap (k_p c) && negb _) eqn:G.
  - wstep. wstep. wstep. split; [split; discriminate|]. split; [exact R|].
    apply andb_true_iff in G as [G _]. destruct R as (_ & Cl & _). split; [|auto]. intro Hc. destruct (Cl Hc) as [Gn _].
    unfold pd_is_gap in G. rewrite Gn in G. discriminate.
  - assert (Rd : ready e sd c).
    { destruct R as (O & Cl & _). split; [exact O|]. split; [exact Cl|]. intro Eg. rewrite Eg in G. cbn in G. now destruct (gap_allowed _ _). }
    wstep. apply wpc_try. eapply wpc_conseq; [apply step_handler, Rd|].
    intros r c' (F & OK' & P' & O' & Cd & Co & K).
    assert (R' : running p0 o0 c').
    { destruct R as (OK & Cl & P & O & Oc). split; [exact OK'|]. split; [|split; [congruence|split; [congruence|eapply hold_trans; eassumption]]].
      intro Hc. destruct (pos_total _ _ P') as [-> ->]. auto. }
    destruct r as [[]|x| |]; try (destruct F; congruence).
    + wstep. apply wpc_get_d. intro v'. cbv beta iota. cbn [set_d_recv d_status]. destruct K as [K Kh].
      destruct (sstate_eqb _ _) eqn:Et.
      * wstep. split; [split; discriminate|]. split; [exact R'|]. apply sstate_eqb_eq in Et. rewrite Et. split; [discriminate|auto].
      * destruct K as [K|K]; [rewrite K in Et; discriminate|].
        wstep. apply wpc_try. apply wpc_handle_state_change; [exact Kh| | |].
        -- apply wpc_after_step; [exact R'|]. intros _ _. exact K.
        -- intro h. apply wpc_after_step; [exact R'|]. intros _ _. exact K.
        -- intro x. apply wpc_after_step; [exact R'|]. discriminate.
    + apply wpc_after_step; [exact R'|]. discriminate.
Qed.
Definition ended (p0 : pdata) (o0 : dir) (r : res sstate) (c : core) : Prop :=
  nofault r /\ running p0 o0 c /\ d_status (k_d c) <> SsClosed /\ exists x, r = ROk x /\ (x = d_status (k_d c) \/ x = SsClosed).
Lemma wpc_data_loop p0 o0 fuel : forall c, running p0 o0 c -> load c < N.of_nat fuel ->
  wpc sd e (data_loop sd fuel) c (ended p0 o0).
Proof.
  induction fuel as [|fuel IH]; intros c R L; [lia|]. cbn [data_loop]. wstep.
  eapply wpc_conseq; [apply wpc_step, R|]. intros r c' (F & R' & K). destruct r as [[x|]|x| |]; try (destruct F; congruence).
  - wstep. split; [split; discriminate|]. split; [exact R'|]. destruct K as [K K']. split; [exact K|]. eauto.
  - apply IH; [exact R'|lia].
  - contradiction.
Qed.
Lemma load_fuel s c : matches sd s c -> wfp (k_p c) -> load c < N.of_nat (loop_fuel sd s).
Proof.
  intros (D & P & _) W. pose proof (slice_len _ W) as L. unfold load, loop_fuel.
  replace (pd_as_slice (s_input s)) with (pd_as_slice (k_p c)) by (rewrite <- P; reflexivity).
  replace (d_buf (s_dir sd s)) with (d_buf (k_d c)) by (rewrite <- D; reflexivity).
  unfold blen in L. assert (R : forall x, rank sd x <= 10) by (intro x; destruct sd, x; cbn; lia).
  pose proof (R (d_state (k_d c))) as Rx. pose proof (R StStreamClose).
  unfold weight. destruct (d_state (k_d c)); cbv iota; try destruct (sstate_eqb _ _); unfold blen; lia.
Qed.
End Loop.

(** ** A data call *)
Definition fresh (p : pdata) : Prop := pd_pos p = 0 /\ (pd_gap p <> None -> pd_data p = None).
Definition dir_ok (e : env) (d : dir) : Prop := bufsum d <= c_field_limit (e_cfg e) /\ d_status d <> SsClosed.
Lemma fresh_wf p : fresh p -> wfp p.
Proof. intros [H G]. split; [lia|exact G]. Qed.

Lemma wpc_mod_tx e sd f c (Q : res unit -> core -> Prop) : k_h c = true -> Q (ROk tt) c -> wpc sd e (mod_tx sd f) c Q.
Proof.
  intros Hh HQ. unfold mod_tx. wstep. apply wpc_the; [exact Hh|]. intro t. wstep. wstep.
  intros s0 Hs0. exists c. split; [|exact HQ]. destruct Hs0 as (D & P & O & H). unfold put_tx, modify. cbn [snd].
  assert (I : inner e s0 (snd (put_tx (s_idx sd s) (f t) e s0))) by apply inner_put. cbn [put_tx modify snd] in I.
  repeat split.
  - destruct sd; exact D.
  - exact P.
  - destruct sd; exact O.
  - intro E. apply (inner_has e s0); [exact I|auto].
Qed.
Lemma wpc_mark_gap e sd c (Q : res (option sstate) -> core -> Prop) :
  (forall x h, x = None \/ x = Some SsError -> Q (ROk x) (mk_core (k_d c) (k_p c) (k_o c) h)) ->
  (forall h, Q (ROk (Some SsError)) (mk_core (set_d_status SsError (k_d c)) (k_p c) (k_o c) h)) ->
  wpc sd e (mark_gap sd) c Q.
Proof.
  intros H1 H2. destruct c as [d p o h]. kred. unfold mark_gap. wstep. wstep. wstep.
  assert (C : wpc sd e (cur_tx sd) (mk_core d p o h) (fun r c' => exists t, r = ROk t /\ exists h', c' = mk_core d p o h' /\ (t <> None -> h' = true))).
  { intros s0 Hs0. pose proof (need_tx_eval sd e s0) as K. unfold need_tx, bind in K. destruct (cur_tx sd e s0) as [r s'] eqn:E.
    assert (I : inner e s0 s') by (replace s' with (snd (cur_tx sd e s0)) by (rewrite E; reflexivity); apply inner_cur).
    cbn [fst snd].
    assert (M : forall h', (h' = true -> has sd s') -> matches sd s' (mk_core d p o h')).
    { intros h' Hh. destruct Hs0 as (D & P & O & _). destruct I as [S _]. kred. repeat split; kred.
      - rewrite <- D. destruct sd; [apply (f_equal s_req) in S|apply (f_equal s_resp) in S]; cbn in *; congruence.
      - rewrite <- P. apply (f_equal s_input) in S. cbn in S. congruence.
      - rewrite <- O. destruct sd; [apply (f_equal s_resp) in S|apply (f_equal s_req) in S]; cbn in *; congruence.
      - exact Hh. }
    destruct r as [[t|]|x| |].
    - destruct K as [(t' & s'' & Et & Hh & _)|Et]; [|discriminate]. injection Et as <- <-.
      exists (mk_core d p o true). split; [apply M; auto|]. exists (Some t). split; [reflexivity|]. exists true. auto.
    - exists (mk_core d p o false). split; [apply M; discriminate|]. exists None. split; [reflexivity|]. exists false. split; [reflexivity|congruence].
    - exfalso. unfold cur_tx in E. destruct (tx_get _ _); [discriminate|]. destruct (_ <=? _); discriminate.
    - exfalso. unfold cur_tx in E. destruct (tx_get _ _); [discriminate|]. destruct (_ <=? _); discriminate.
    - exfalso. unfold cur_tx in E. destruct (tx_get _ _); [discriminate|]. destruct (_ <=? _); discriminate. }
  eapply wpc_conseq; [exact C|]. intros r c' (t & -> & h' & -> & Hh). destruct t as [t|].
  - rewrite (Hh ltac:(discriminate)). wstep. apply wpc_mod_tx; [reflexivity|]. wstep.
    + wstep. unfold set_progress, mod_txd. apply wpc_mod_tx; [reflexivity|]. wstep. unfold set_status. apply wpc_upd; [reflexivity|]. wstep. apply H2.
    + wstep. apply H1. auto.
  - wstep. apply H1. auto.
Qed.

(** The call is given [chunk]; nothing is known of what was in the place of the input. *)
Definition called (e : env) (sd : side) (chunk : pdata) (o0 : dir) (r : res sstate) (c : core) : Prop :=
  (exists x, r = ROk x /\ (x = d_status (k_d c) \/ x = SsClosed \/ pd_is_gap chunk = true /\ x = SsError)) /\ dir_ok e (k_d c) /\ d_consumed (k_d c) <= total chunk /\
  others (k_o c) = others o0 /\ hold sd o0 (k_o c).
Lemma wpc_chunk e sd chunk c (Q : res unit -> core -> Prop) :
  Q (ROk tt) (mk_core (k_d c) (set_pd_cb 0 chunk) (k_o c) (k_h c)) -> wpc sd e (modify (set_s_input chunk)) c Q.
Proof.
  intros H s (D & P & O & Hh). eexists. split; [|exact H]. repeat split; kred.
  - destruct sd; exact D.
  - destruct sd; exact O.
  - intro E. specialize (Hh E). destruct sd; exact Hh.
Qed.
Lemma wpc_count e sd n c (Q : res unit -> core -> Prop) : Q (ROk tt) c -> wpc sd e (modify (count_data sd n)) c Q.
Proof. intros H. apply wpc_modify; [|exact H]. intros s Hs. destruct sd; exact Hs. Qed.
Lemma wpc_data_call e sd chunk c : fresh chunk -> bufsum (k_d c) <= c_field_limit (e_cfg e) ->
  (d_status (k_d c) = SsClosed -> chunk = pd_default) ->
  wpc sd e (data_call sd chunk) c (called e sd chunk (k_o c)).
Proof.
  intros [Fp Fg] B Cl. unfold data_call. wstep. apply wpc_chunk. kred. wstep. apply wpc_upd; [reflexivity|]. kred.
  wstep. apply wpc_get_d. intro v. kred. cbv beta iota. destruct c as [d p o h]. kred.
  set (p1 := set_pd_cb 0 chunk). assert (W : wfp p1) by (split; [cbn; lia|exact Fg]).
  set (c0 := mk_core (set_d_consumed 0 d) p1 o h).
  assert (End : forall x, x = d_status d \/ x = SsClosed -> d_status d <> SsClosed -> called e sd chunk o (ROk x) c0).
  { intros x Hx Nc. split; [exists x; split; [reflexivity|]; destruct Hx; auto|]. split; [split; assumption|]. split; [cbn; lia|]. split; [reflexivity|apply hold_refl]. }
  assert (Cl1 : d_status d = SsClosed -> pd_gap p1 = None /\ total p1 = 0).
  { intro Hc. specialize (Cl Hc). unfold p1. rewrite Cl. split; reflexivity. }
  assert (Loop : forall o' h', others o' = others o -> hold sd o o' ->
    wpc sd e (let* s := get in data_loop sd (loop_fuel sd s)) (mk_core (set_d_consumed 0 d) p1 o' h') (called e sd chunk o)).
  { intros o' h' Ho Hc. wstep. wstep.
    eapply wpc_conseq; [apply (wpc_data_loop e sd p1 o'); [|apply load_fuel; [exact Hs|exact W]]|].
    - split; [split; [exact W|split; [symmetry; exact Fp|exact B]]|]. split; [exact Cl1|]. split; [reflexivity|split; [reflexivity|apply hold_refl]].
    - intros r c1 (F & ((Wc & Cc & Bc) & _ & Pc & Oc & Sc) & Nc & x & -> & Hx).
      split; [exists x; split; [reflexivity|]; destruct Hx; auto|]. split; [split; assumption|]. split; [|split; [congruence|eapply hold_trans; eassumption]].
      rewrite Cc. destruct Wc as [Wc _]. destruct (pos_total _ _ Pc) as [_ Et]. rewrite Et in Wc. exact Wc. }
  assert (Tail : wpc sd e
     (by_side sd (let* r := get_d SResp in when (sstate_eqb (d_status r) SsDataOther) (set_status SResp SsData)) (ret tt) ;;
          let* early := (if pd_is_gap chunk then mark_gap sd else ret None) in
          match early with
          | Some x => ret x
          | None => let* s := get in data_loop sd (loop_fuel sd s)
          end) c0 (called e sd chunk o)).
  { wstep. eapply (wpc_conseq _ _ _ _ (fun r c' => r = ROk tt /\ exists o', c' = mk_core (set_d_consumed 0 d) p1 o' h /\ others o' = others o /\
        hold sd o o')).
    { destruct sd; cbn [by_side]; unfold c0; [wstep; apply (wpc_get_o SReq); intro; cbv beta iota; wgo|wgo]; (split; [reflexivity|]); eexists; (split; [reflexivity|]); (split; [reflexivity|]); first [apply hold_refl|split; kred; discriminate]. }
    intros r c' [-> (o' & -> & Ho & Hc)]. wstep. destruct (pd_is_gap chunk) eqn:Eg; [|wstep; apply Loop; assumption].
    assert (Nc : d_status d <> SsClosed).
    { intro Hc'. destruct (Cl1 Hc') as [G _]. unfold pd_is_gap in Eg. change (pd_gap chunk) with (pd_gap p1) in Eg. rewrite G in Eg. discriminate. }
    apply wpc_mark_gap; [intros [x|] h' Hx; [|apply Loop; assumption]; destruct Hx as [Hx|[= ->]]; [discriminate|]; wstep|intros h'; wstep].
    all: (split; [eexists; split; [reflexivity|kred; auto]|]); (split; [split; [assumption|kred; congruence]|]); (split; [kred; lia|]); split; assumption. }
  cbn [set_d_recv d_status set_d_consumed].
  destruct (d_status d) eqn:Es; cbv iota.
  all: try (wstep; wstep; wstep; apply End; [auto|discriminate]).
  all: cbn [sstate_eqb negb]; rewrite ?andb_true_r, ?andb_false_r; try (destruct (pd_is_empty chunk) eqn:Ee; [wstep; wstep; wstep; apply End; [auto|discriminate]|]).
  all: wstep; apply wpc_count; cbv beta iota.
  all: try exact Tail.
  wstep; apply End; [auto|discriminate].
Qed.

(** ** From cores to states *)
Definition core_of (sd : side) (s : st) : core :=
  mk_core (set_d_recv None (s_dir sd s)) (set_pd_cb 0 (s_input s)) (set_d_recv None (s_dir (opp sd) s)) false.
Lemma core_of_matches sd s : matches sd s (core_of sd s).
Proof. repeat split. discriminate. Qed.
Definition others' (d : dir) : dir := others (set_d_recv None d).
Theorem data_call_ok e sd chunk s : fresh chunk -> bufsum (s_dir sd s) <= c_field_limit (e_cfg e) ->
  (d_status (s_dir sd s) = SsClosed -> chunk = pd_default) ->
  exists x s', data_call sd chunk e s = (ROk x, s') /\
    (x = d_status (s_dir sd s') \/ x = SsClosed \/ pd_is_gap chunk = true /\ x = SsError) /\
    dir_ok e (s_dir sd s') /\ d_consumed (s_dir sd s') <= total chunk /\
    others' (s_dir (opp sd) s') = others' (s_dir (opp sd) s) /\
    hold sd (s_dir (opp sd) s) (s_dir (opp sd) s').
Proof.
  intros F B Cl. destruct (wpc_data_call e sd chunk (core_of sd s) F B Cl s (core_of_matches sd s)) as (c' & (D & P & O & _) & K).
  destruct K as ((x & Hx & Kx) & (B' & N') & Cc & Oc & Sc). destruct (data_call sd chunk e s) as [r s']. cbn [fst snd] in *. subst r.
  exists x, s'. split; [reflexivity|]. rewrite <- D in *. rewrite <- O in *. split; [exact Kx|]. split; [split; assumption|]. split; [exact Cc|]. split; assumption.
Qed.

(** ** Histories *)
Lemma fresh_chunk_fresh c : fresh_chunk c = true -> fresh c.
Proof.
  unfold fresh_chunk. rewrite !andb_true_iff. intros [[H1 _] H2]. split; [lia|]. intro G. destruct (pd_gap c); [|congruence].
  destruct (pd_data c); [discriminate|reflexivity].
Qed.
Definition sane (e : env) (nq np : N) (s : st) : Prop :=
  dir_ok e (s_req s) /\ dir_ok e (s_resp s) /\ d_consumed (s_req s) <= nq /\ d_consumed (s_resp s) <= np.

Lemma others_bufsum d d' : others' d' = others' d -> bufsum d' = bufsum d /\ d_consumed d' = d_consumed d.
Proof. destruct d, d'. unfold others', others, bufsum. cbn. intro H. injection H. intros. subst. split; reflexivity. Qed.
Lemma flush_ok e s : exists s', flush_incomplete_transactions e s = (ROk tt, s') /\ s_req s' = s_req s /\ s_resp s' = s_resp s.
Proof.
  unfold flush_incomplete_transactions, ask, get. unfold bind at 1. unfold bind at 1. generalize (map fst (filter (fun it => is_started (snd it) && negb (is_complete (snd it))) (s_txs s))).
  intro l.
  revert s. induction l as [|i l IH]; intro s; cbn [for_each]; [exists s; auto|].
  unfold bind at 1. unfold bind at 1.
  assert (T : exists s1, ignore (tx_hook HTransactionComplete i) e s = (ROk tt, s1) /\ s_req s1 = s_req s /\ s_resp s1 = s_resp s).
  { pose proof (calm_tx_hook SReq false HTransactionComplete i) as [S F]. specialize (S e s). specialize (F e s ltac:(discriminate)).
    unfold ignore. destruct (tx_hook _ _ e s) as [r s1]. cbn [fst snd] in *. exists s1. destruct S as [S _].
    split; [destruct r; try reflexivity; destruct F; congruence|]. split; [apply (f_equal s_req) in S|apply (f_equal s_resp) in S]; exact S. }
  destruct T as (s1 & -> & E1 & E2). unfold when. destruct (c_auto_destroy _).
  - cbn [modify]. edestruct IH as (s2 & E & E3 & E4). exists s2. split; [exact E|]. cbn in E3, E4. split; congruence.
  - cbn [ret]. destruct (IH s1) as (s2 & E & E3 & E4). exists s2. split; [exact E|]. split; congruence.
Qed.
Theorem run_op_ok e o s nq np : valid_op o -> sane e nq np s ->
  exists x s', run_op o e s = (ROk x, s') /\ sane e (last_size1 SReq nq o) (last_size1 SResp np o) s'.
Proof.
  intros V ((Bq & Nq) & (Bp & Np) & Cq & Cp). destruct o as [|c|c| | |i]; cbn [run_op last_size1 valid_op] in *.
  - unfold bind at 1, get. destruct (_ && _); eexists; eexists; (split; [reflexivity|]).
    + repeat split; cbn; try assumption; discriminate.
    + unfold log. cbn [snd]. destruct (_ <=? _); repeat split; assumption.
  - destruct (data_call_ok e SReq c s (fresh_chunk_fresh _ V) Bq (fun H => False_ind _ (Nq H))) as (x & s' & E & _ & D & C & O & S).
    unfold bind. rewrite E. exists (Some x), s'. split; [reflexivity|]. destruct (others_bufsum _ _ O) as [O1 O2]. cbn [s_dir opp] in *.
    split; [exact D|]. split; [split; [lia|intro Hc'; apply S in Hc'; congruence]|]. split; [exact C|lia].
  - destruct (data_call_ok e SResp c s (fresh_chunk_fresh _ V) Bp (fun H => False_ind _ (Np H))) as (x & s' & E & _ & D & C & O & S).
    unfold bind. rewrite E. exists (Some x), s'. split; [reflexivity|]. destruct (others_bufsum _ _ O) as [O1 O2]. cbn [s_dir opp] in *.
    split; [split; [lia|intro Hc'; apply S in Hc'; congruence]|]. split; [exact D|]. split; [lia|exact C].
  - assert (Cs : exists s1, close_status SReq e s = (ROk tt, s1) /\ bufsum (s_req s1) = bufsum (s_req s) /\ s_resp s1 = s_resp s).
    { unfold close_status, bind, get_d, when. destruct (negb _); eexists; (split; [reflexivity|]); split; reflexivity. }
    destruct Cs as (s1 & E1 & B1 & R1).
    destruct (data_call_ok e SReq pd_default s1 ltac:(split; [reflexivity|cbn; congruence]) ltac:(cbn [s_dir]; lia) (fun _ => eq_refl)) as (x & s' & E & _ & D & C & O & S).
    unfold bind. rewrite E1, E. exists None, s'. split; [reflexivity|]. destruct (others_bufsum _ _ O) as [O1 O2]. cbn [s_dir opp] in *. rewrite R1 in *.
    split; [exact D|]. split; [split; [lia|intro Hc'; apply S in Hc'; congruence]|]. split; [exact C|lia].
  - assert (Cs : forall sd s0, exists s1, close_status sd e s0 = (ROk tt, s1) /\ bufsum (s_dir sd s1) = bufsum (s_dir sd s0) /\ s_dir (opp sd) s1 = s_dir (opp sd) s0).
    { intros sd s0. unfold close_status, bind, get_d, when. destruct (negb _); eexists; (split; [reflexivity|]); split; destruct sd; reflexivity. }
    destruct (Cs SReq s) as (s1 & E1 & B1 & R1). destruct (Cs SResp s1) as (s2 & E2 & B2 & R2). cbn [s_dir opp] in *.
    destruct (data_call_ok e SReq pd_default s2 ltac:(split; [reflexivity|cbn; congruence]) ltac:(cbn [s_dir]; rewrite R2; lia) (fun _ => eq_refl)) as (x & s3 & E3 & _ & D3 & C3 & O3 & S3).
    destruct (others_bufsum _ _ O3) as [O1 O2]. cbn [s_dir opp] in *.
    destruct (data_call_ok e SResp pd_default s3 ltac:(split; [reflexivity|cbn; congruence]) ltac:(cbn [s_dir]; rewrite O1, B2, R1; lia) (fun _ => eq_refl)) as (y & s4 & E4 & _ & D4 & C4 & O4 & S4).
    destruct (others_bufsum _ _ O4) as [O5 O6]. cbn [s_dir opp] in *.
    assert (G : sane e 0 0 s4).
    { destruct D3 as [D3 D3']. split; [split; [lia|intro Hc'; apply S4 in Hc'; congruence]|]. split; [exact D4|]. split; [rewrite O6; exact C3|exact C4]. }
    unfold bind. rewrite E1, E2, E3, E4. cbn [ask]. unfold when. destruct (c_flush _).
    + destruct (flush_ok e s4) as (s5 & E5 & Q1 & Q2). rewrite E5. exists None, s5. split; [reflexivity|].
      unfold sane in *. rewrite Q1, Q2. exact G.
    + exists None, s4. split; [reflexivity|exact G].
  - exists None. eexists. split; [reflexivity|]. repeat split; assumption.
Qed.
Theorem run_ops_ok e l : forall s nq np, Forall valid_op l -> sane e nq np s ->
  exists r s', run_ops l e s = (ROk r, s') /\ sane e (fold_left (last_size1 SReq) l nq) (fold_left (last_size1 SResp) l np) s'.
Proof.
  induction l as [|o l IH]; intros s nq np V S; cbn [run_ops fold_left]; [exists [], s; auto|].
  inversion_clear V as [|? ? V1 V2]. destruct (run_op_ok e o s nq np V1 S) as (x & s1 & E & S1).
  destruct (IH s1 _ _ V2 S1) as (r & s' & E' & S'). unfold bind. rewrite E, E'. exists (x :: r), s'. auto.
Qed.
Lemma sane_new e : sane e 0 0 st_new.
Proof.
  assert (B : forall d, bufsum d = 0 -> bufsum d <= c_field_limit (e_cfg e)) by (intros d ->; lia).
  split; [|split; [|split]]; try (cbn; lia); (split; [now apply B|discriminate]).
Qed.
Theorem history_ok e l : Forall valid_op l ->
  exists r s, history e l = (ROk r, s) /\ sane e (fold_left (last_size1 SReq) l 0) (fold_left (last_size1 SResp) l 0) s.
Proof. intro V. apply run_ops_ok; [exact V|apply sane_new]. Qed.
