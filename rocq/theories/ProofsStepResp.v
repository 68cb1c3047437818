(** One step of the response machine. *)
From Verif Require Import Base ModelState ModelTx ModelConn Spec.
From Verif Require Import ProofsBase ProofsParsers ProofsHeaders ProofsConn ProofsCore ProofsStep.

Section ResponseHandlers.
Variable e : env.

Lemma not_closed s : s <> SsClosed -> sstate_eqb s SsClosed = false.
Proof using. destruct s; cbn; congruence. Qed.
Lemma step_response_idle : forall c, ready e SResp c -> d_state (k_d c) = StIdle -> wpc SResp e response_idle c (good e SResp c).
Proof using.
  start. nogap p. unfold response_idle. do 2 wstep. simp_in. kred. wstep; [wgo; finish|].
  assert (Nc : sstate_eqb stt SsClosed = false).
  { apply not_closed. intros ->. destruct (Cl eq_refl). unfold pd_is_empty in *. lia. }
  unfold pd_is_empty in *. wstep. wstep; [|finish]. kred. wstep.
  apply (wpc_conseq _ _ _ _ (fun r c' => nofault r /\
    exists h', c' = mk_core (mk_dir stt (pd_pos p) buf hdr clen lft chk StIdle prev rcv) p o h')).
  { wgo; (split; [split; discriminate|eexists; reflexivity]). }
  intros r c' [F [h' ->]]. byres F; [|finish]. wgo. apply wpc_state_response_start. intros r c' F' R Hs. unres.
  byres F'; try (destruct (Hs eq_refl); subst); try finish.
  fin; numb. split; [right|discriminate]. rewrite Nc. lia.
Qed.
Lemma step_response_chunked_data_end : forall c, ready e SResp c -> d_state (k_d c) = StChunkedDataEnd ->
  wpc SResp e response_body_chunked_data_end c (good e SResp c).
Proof using.
  start. nogap p. unfold response_body_chunked_data_end. wstep. wstep; [|finish]. wstep. wstep. kred. simp_in.
  destruct (take_till_lf _) as [rest line| |] eqn:E.
  - line E. wgo; finish.
  - wgo; finish.
  - wgo; finish.
Qed.
Lemma step_response_chunked_length : forall c, ready e SResp c -> d_state (k_d c) = StChunkedLength ->
  wpc SResp e response_body_chunked_length c (good e SResp c).
Proof using.
  start. nogap p. unfold response_body_chunked_length. wstep. wstep. kred.
  set (c0 := mk_core _ p o h).
  assert (K : forall n x h', (length (pd_as_slice (set_pd_pos x p)) < n)%nat -> pd_pos p <= x -> x <= total p ->
    wpc SResp e (response_chunked_length_loop n (pd_as_slice (set_pd_pos x p)))
      (mk_core (mk_dir stt x buf hdr clen lft chk StChunkedLength prev rcv) (set_pd_pos x p) o h') (good e SResp c0)).
  { subst c0. induction n as [|n IH]; intros x h' Hn Hx1 Hx2; [lia|]. cbn [response_chunked_length_loop].
    assert (Wx : wfp (set_pd_pos x p)) by (split; assumption).
    pose proof (slice_len _ Wx) as Slx. pose proof (avail_nogap (set_pd_pos x p) Gp') as Avx. kred. rewrite total_pos in Avx.
    wstep. wstep; [|finish]. kred.
    destruct (take_till_lf _) as [rest line| |] eqn:E.
    - apply take_till_lf_line in E as [E Nl]. pose proof (line_facts _ _ _ Wx E Nl) as (La & Lb & Lc & Lg).
      pose proof (slice_consume _ _ _ Wx E) as Sc. kred. change (set_pd_pos ?a (set_pd_pos x p)) with (set_pd_pos a p) in Sc.
      assert (IHx : forall h', wpc SResp e (response_chunked_length_loop n rest)
         (mk_core (mk_dir stt (x + blen line) buf hdr clen lft chk StChunkedLength prev rcv) (set_pd_pos (x + blen line) p) o h')
         (good e SResp (mk_core (mk_dir stt (pd_pos p) buf hdr clen lft chk StChunkedLength prev rcv) p o h))).
      { intro h2. rewrite <- Sc. apply IH; [|lia|lia]. rewrite Sc. apply (f_equal (@length N)) in E. rewrite app_length in E.
        unfold blen in Lb. lia. }
      wstep. wstep. kred. wgo; try finish; try apply IHx.
      all: assert (Lt : (blen line <? x + blen line) = (0 <? x)) by (destruct (0 <? x) eqn:X0; lia).
      all: destruct (blen line <? x + blen line) eqn:El; replace (x + blen line - blen line) with x in * by lia.
      all: fin; numb; try exact I; try (split; [right|discriminate]; change (pd_gap (set_pd_pos (x + blen line) (set_pd_pos x p))) with (pd_gap p); destruct (sstate_eqb _ _); rewrite ?Lg; lia).
    - apply (proj2 (proj2 (take_till_lf_spec (pd_as_slice (set_pd_pos x p))))) in E. contradiction.
    - destruct (is_valid_chunked_length_data _).
      + apply wpc_absent_lf; [unfold ok_core, wfp, bufsum; kred; repeat split; assumption || reflexivity|finish|].
        intros c' (Wc & C' & Bx) E1 E2 E3. open_core c'. subst. destruct Wc as [Wa Wb]. unfold bufsum in Bx. kred. finish.
      + wgo; try finish. fin; numb. split; [right|discriminate]. destruct (sstate_eqb _ _); destruct (pd_gap p); lia. }
  specialize (K (S (length (pd_as_slice p))) (pd_pos p) h).
  replace (set_pd_pos (pd_pos p) p) with p in K by (destruct p; reflexivity). apply K; lia.
Qed.
Lemma step_response_cl_known : forall c, ready e SResp c -> d_state (k_d c) = StClKnown ->
  wpc SResp e response_body_identity_cl_known c (good e SResp c).
Proof using.
  start. unfold response_body_identity_cl_known. do 4 wstep; kred. simp_in. wstep; [wgo; finish|].
  destruct lft as [lft|]; [|wgo; finish]. cbv zeta. wstep; [wgo; finish|]. wstep.
  destruct (pd_is_gap p) eqn:G.
  - assert (exists g, pd_gap p = Some g) as [g Eg] by (unfold pd_is_gap in G; destruct (pd_gap p); [eauto|discriminate]).
    wgo; try finish.
  - pose proof (avail_nogap _ G) as Av. wstep. apply wpc_slice_to; [kred; lia|]. cbv beta iota. wgo; try finish.
Qed.
Lemma step_response_stream_close : forall c, ready e SResp c -> d_state (k_d c) = StStreamClose ->
  wpc SResp e response_body_identity_stream_close c (good e SResp c).
Proof using.
  start. unfold response_body_identity_stream_close. do 2 wstep; kred. simp_in. wstep.
  assert (Tail : forall x h', pd_pos p <= x <= total p ->
    wpc SResp e (let* d := get_d SResp in if sstate_eqb (d_status d) SsClosed then set_state SResp StFinalize else fail SData)
      (mk_core (mk_dir stt x buf hdr clen lft chk StStreamClose prev rcv) (set_pd_pos x p) o h')
      (good e SResp (mk_core (mk_dir stt (pd_pos p) buf hdr clen lft chk StStreamClose prev rcv) p o h))).
  { intros x h' Hx. wgo; try finish. fin; numb. split; [right|discriminate].
    apply sstate_eqb_eq in Heqb. subst. destruct (Cl eq_refl) as [G0 T0]. rewrite G0. cbn [sstate_eqb]. lia. }
  assert (Tail0 : forall h', wpc SResp e (let* d := get_d SResp in if sstate_eqb (d_status d) SsClosed then set_state SResp StFinalize else fail SData)
      (mk_core (mk_dir stt (pd_pos p) buf hdr clen lft chk StStreamClose prev rcv) p o h')
      (good e SResp (mk_core (mk_dir stt (pd_pos p) buf hdr clen lft chk StStreamClose prev rcv) p o h))).
  { intros h'. specialize (Tail (pd_pos p) h' ltac:(lia)).
    replace (set_pd_pos (pd_pos p) p) with p in Tail by (destruct p; reflexivity). exact Tail. }
  wstep.
  - wstep. wstep; [|finish]. kred. wstep; [apply Tail0|finish].
  - wstep. wstep.
    + wstep. wstep; [|finish]. kred. wstep. kred. apply Tail. lia.
    + wstep. kred. apply Tail0.
Qed.

Definition framed (x : pstate) : Prop := In x [StChunkedLength; StFinalize; StClKnown; StStreamClose].
Lemma wpc_response_body_framing cl te c Q : k_h c = true -> sends c framed Q ->
  wpc SResp e (response_body_framing cl te) c Q.
Proof using.
  intros Hh H. destruct c as [d p o h]. kred. subst. unfold response_body_framing. wstep. wstep. cbv zeta.
  wgo; sent H; unfold framed; cbn [In]; tauto.
Qed.
Lemma restated_trans a b c : restated a b -> restated b c -> restated a c.
Proof using. intros (H1 & H2 & H3) (H4 & H5 & H6). repeat split; congruence. Qed.
Lemma wpc_response_body_presence cl te c Q : k_h c = true -> d_state (k_d c) = StBodyDetermine -> sends c framed Q ->
  wpc SResp e (response_body_presence cl te) c Q.
Proof using.
  intros Hh Hs H. unfold response_body_presence.
  assert (Tail : forall c1, restated c c1 -> k_h c1 = true -> (d_state (k_d c1) = StFinalize \/ d_state (k_d c1) = StBodyDetermine) ->
    wpc SResp e (let* d := get_d SResp in
      when (negb (pstate_eqb (d_state d) StFinalize)) (response_body_framing cl te) ;; state_response_headers) c1 Q).
  { intros c1 R1 H1 S1. wstep. wstep. wstep. unfold when. cbn [set_d_recv d_state].
    assert (T : forall c2, restated c c2 -> framed (d_state (k_d c2)) -> wpc SResp e state_response_headers c2 Q).
    { intros c2 R2 S2. apply wpc_state_response_headers. intros r F. apply H; auto. }
    destruct (negb _) eqn:E.
    - apply wpc_response_body_framing; [exact H1|]. intros r c2 F R2 S2. destruct r as [[]|x| |]; try (destruct F; congruence).
      + apply T; [eapply restated_trans; eassumption|auto].
      + apply H; [exact F|eapply restated_trans; eassumption|discriminate].
    - wstep. apply T; [exact R1|]. destruct S1 as [S1|S1]; rewrite S1 in *; [|discriminate]. unfold framed; cbn [In]; tauto. }
  destruct c as [d p o h]. kred. subst h. wstep. wstep. wstep.
  apply (wpc_conseq _ _ _ _ (fun r c1 => nofault r /\ restated (mk_core d p o true) c1 /\ k_h c1 = true /\
    (d_state (k_d c1) = StFinalize \/ d_state (k_d c1) = StBodyDetermine))).
  { wgo; (split; [split; discriminate|]); repeat split; kred; auto. }
  intros r c1 (F & R & K & S1). destruct r as [[]|x| |]; try (destruct F; congruence); [apply Tail; assumption|].
  apply H; [exact F|exact R|discriminate].
Qed.
Lemma step_response_body_determine : forall c, ready e SResp c -> d_state (k_d c) = StBodyDetermine ->
  wpc SResp e response_body_determine c (good e SResp c).
Proof using.
  start. nogap p. unfold response_body_determine.
  assert (Fin : forall o' s', others o' = others o -> hold SResp o o' ->
     (s' = stt \/ s' = SsTunnel) ->
     wpc SResp e state_response_headers (mk_core (mk_dir s' (pd_pos p) buf hdr clen lft chk StFinalize prev rcv) p o' true)
       (good e SResp (mk_core (mk_dir stt (pd_pos p) buf hdr clen lft chk StBodyDetermine prev rcv) p o h))).
  { intros o' s' Ho Hc Hs'. apply wpc_state_response_headers. intros r F. destruct r as [[]|x| |]; try (destruct F; congruence).
    all: destruct Hs' as [->| ->]; finish. }
  assert (Pres : forall cl te o', others o' = others o -> hold SResp o o' ->
     wpc SResp e (response_body_presence cl te) (mk_core (mk_dir stt (pd_pos p) buf hdr clen lft chk StBodyDetermine prev rcv) p o' true)
       (good e SResp (mk_core (mk_dir stt (pd_pos p) buf hdr clen lft chk StBodyDetermine prev rcv) p o h))).
  { intros cl te o' Ho Hc. apply wpc_response_body_presence; [reflexivity|reflexivity|]. intros r c' F R Hs. unres.
    byres F; [|finish]. specialize (Hs eq_refl). unfold framed in Hs. cbn [In] in Hs.
    destruct Hs as [<-|[<-|[<-|[<-|[]]]]]; try finish. fin; numb. split; [right|discriminate].
    destruct (sstate_eqb _ _); lia. }
  wstep. wstep; [|finish]. wstep; [wgo; apply Fin; auto using hold_refl|].
  wstep. apply (wpc_conseq _ _ _ _ (fun r c' => r = ROk tt /\ exists o', others o' = others o /\
     hold SResp o o' /\
     c' = mk_core (mk_dir stt (pd_pos p) buf hdr clen lft chk StBodyDetermine prev rcv) p o' true)).
  { unfold resume_requests. wgo; (split; [reflexivity|]); eexists; (split; [|split; [|reflexivity]]); try reflexivity; first [apply hold_refl|split; kred; [discriminate|intros _ Eo; rewrite Eo in *; discriminate]]. }
  intros r c' [-> (o1 & Ho & Hc & ->)]. wstep. wstep. cbv zeta. wstep. wstep. kred.
  destruct (eq_num _ 101).
  - wgo; try (apply Pres; assumption); try finish; (apply Fin; kred; auto; try (eapply hold_trans; [exact Hc|split; kred; [discriminate|intros _ Eo; rewrite Eo in *; discriminate]])).
  - destruct (eq_num _ 100 && _).
    + destruct (match headers_get_nocase_nozero _ _ with Some h => _ | None => _ end) as [len lg].
      wgo; try (apply Pres; assumption); finish.
    + wstep. apply (wpc_conseq _ _ _ _ (fun r c' => r = ROk tt /\ exists o', others o' = others o /\
        hold SResp o o' /\
         c' = mk_core (mk_dir stt (pd_pos p) buf hdr clen lft chk StBodyDetermine prev rcv) p o' true)).
      { wgo; (split; [reflexivity|]); eexists; (split; [|split; [|reflexivity]]); try exact Ho; try exact Hc; split; kred; apply Hc. }
      intros r c' [-> (o2 & Ho2 & Hc2 & ->)]. apply Pres; assumption.
Qed.

Lemma wpc_parse_headers c d (Q : res (bytes * bool) -> core -> Prop) :
  (forall a, Q (ROk a) (mk_core (k_d c) (k_p c) (k_o c) true)) ->
  (forall x h, Q (RErr x) (mk_core (k_d c) (k_p c) (k_o c) h)) ->
  wpc SResp e (parse_headers SResp d) c Q.
Proof using.
  intros H1 H2. unfold parse_headers. wstep. wstep.
  - destruct (headers_total SResp (t_hpc (x_dir SResp t)) d) as (q & -> & _). wgo; try apply H2; try apply H1.
    refine (wpc_calm _ _ true _ _ _ _ _ _); [|reflexivity|].
    { apply calm_for_each. auto with calm. }
    intros [[]|x| |] F; [wgo; apply H1|apply H2|destruct F; congruence|destruct F; congruence].
  - destruct c as [? ? ? h]. apply (H2 _ h).
Qed.
Lemma step_response_headers : forall c, ready e SResp c -> d_state (k_d c) = StHeaders ->
  wpc SResp e response_headers c (good e SResp c).
Proof using.
  start. nogap p. unfold response_headers. wstep. wstep. destruct Hs as (Hd & _). kred.
  assert (Es : d_status (s_resp s) = stt) by (apply (f_equal d_status) in Hd; exact Hd).
  assert (Eh : d_header (s_resp s) = hdr) by (apply (f_equal d_header) in Hd; exact Hd).
  cbv zeta. rewrite Es, Eh. clear Hd. destruct (sstate_eqb stt SsClosed) eqn:Ec.
  - unfold response_trailer_done. wgo; finish.
  - wstep. wstep. wstep. wstep. kred. simp_in. cbv zeta. wstep. apply wpc_parse_headers; [|intros; finish].
    intros [remaining eoh]. kred. cbv zeta. wstep.
    + wstep. apply (wpc_conseq _ _ _ _ (fun r c' => r = ROk tt /\ exists x, pd_pos p <= x <= total p /\
        c' = mk_core (mk_dir stt x buf None clen lft chk StHeaders prev rcv) (set_pd_pos x p) o true)).
      { wgo; (split; [reflexivity|]); eexists; (split; [|kred; try reflexivity]); try lia.
        instantiate (1 := pd_pos p). lia. destruct p; reflexivity. }
      intros r c' [-> (x & Hx & ->)]. unfold response_trailer_done. wgo; finish.
    + wgo; finish.
Qed.
Lemma step_response_line : forall c, ready e SResp c -> d_state (k_d c) = StLine -> wpc SResp e response_line c (good e SResp c).
Proof using.
  start. nogap p. unfold response_line. do 4 wstep. simp_in. kred.
  assert (K : forall x h' line, pd_pos p <= x <= total p -> (line <> [] -> total p - x < avail p + N.min (blen buf) 1) ->
      wpc SResp e (response_line_complete line)
        (mk_core (mk_dir stt x [] hdr clen lft chk StLine prev rcv) (set_pd_pos x p) o h')
        (good e SResp (mk_core (mk_dir stt (pd_pos p) buf hdr clen lft chk StLine prev rcv) p o h))).
  { intros x h' line Hx A. unfold response_line_complete.
    assert (Wx : wfp (set_pd_pos x p)) by (split; [apply Hx|assumption]).
    pose proof (slice_len _ Wx) as Slx. pose proof (avail_nogap (set_pd_pos x p) Gp') as Avx. pose proof (pd_len_total _ Wx) as Plx.
    kred. rewrite total_pos in Avx, Plx.
    assert (G0 : pd_gap p = None) by (unfold pd_is_gap in Gp'; destruct (pd_gap p); [discriminate|reflexivity]).
    destruct (is_nil line) eqn:En.
    - wgo; finish.
    - assert (Nl : line <> []) by (intros ->; discriminate). specialize (A Nl).
      wstep. wstep; [|finish]. kred. wstep. wstep. wstep. wstep; [|finish]. kred.
      destruct (is_line_ignorable _ _); [wgo; finish|]. wstep. wstep; [|finish]. kred.
      destruct (treat_response_line_as_body _); [|wgo; finish]. wstep. wstep. simp_in. kred. wstep.
      apply (wpc_conseq _ _ _ _ (fun r c' => (exists b : bool, r = ROk b) /\
        c' = mk_core (mk_dir stt x [] hdr clen lft chk StLine prev rcv) (set_pd_pos x p) o true)).
      { destruct (4 <=? _) eqn:E4; [|wgo; split; eauto]. unfold http_ahead. cbv zeta.
        destruct (_ <? 4) eqn:E5; [|wgo; split; eauto]. rewrite blen_firstn in E5. lia. }
      intros r c' [[b ->] ->]. unfold pd_is_empty. wgo; finish. }
  destruct (take_till_eol _) as [rest [line k]| |] eqn:E.
  - line E. do 4 wstep. kred. apply K; lia.
  - destruct (sstate_eqb stt SsClosed) eqn:Es; [|absent].
    apply sstate_eqb_eq in Es. subst. destruct (Cl eq_refl) as [G0 T0]. do 4 wstep. kred. simp_in.
    apply K; [lia|]. intros Nl. assert (A0 : avail p = 0) by lia.
    assert (0 < blen buf); [|lia]. rewrite A0 in Sl. destruct (pd_as_slice p); [|unfold blen in Sl; cbn [length] in Sl; lia].
    rewrite app_nil_r in Nl. destruct buf; [congruence|unfold blen; cbn [length]; lia].
  - destruct (sstate_eqb stt SsClosed) eqn:Es; [|absent].
    apply sstate_eqb_eq in Es. subst. destruct (Cl eq_refl) as [G0 T0]. do 4 wstep. kred. simp_in.
    apply K; [lia|]. intros Nl. assert (A0 : avail p = 0) by lia.
    assert (0 < blen buf); [|lia]. rewrite A0 in Sl. destruct (pd_as_slice p); [|unfold blen in Sl; cbn [length] in Sl; lia].
    rewrite app_nil_r in Nl. destruct buf; [congruence|unfold blen; cbn [length]; lia].
Qed.
Lemma step_response_finalize : forall c, ready e SResp c -> d_state (k_d c) = StFinalize ->
  wpc SResp e response_finalize c (good e SResp c).
Proof using.
  start. unfold response_finalize. do 4 wstep. kred. simp_in. cbv zeta.
  assert (Fin : forall c1, ok_core e c1 -> set_pd_pos 0 (k_p c1) = set_pd_pos 0 p -> k_o c1 = o -> d_status (k_d c1) = stt ->
    d_state (k_d c1) = StFinalize -> avail (k_p c1) + N.min (blen (d_buf (k_d c1))) 1 <= avail p + 2 * blen buf ->
    wpc SResp e state_response_complete c1 (good e SResp (mk_core (mk_dir stt (pd_pos p) buf hdr clen lft chk StFinalize prev rcv) p o h))).
  { intros c1 (W1' & C1 & B1) E1 E2 E3 E4 A. open_core c1. subst. unfold bufsum in B1. kred. destruct W1' as [Wa Wb].
    apply wpc_state_response_complete. intros r c' F R Hs. unres. byres F; try (specialize (Hs eq_refl); subst); finish. }
  assert (Work : forall work x, pd_gap p = None -> blen work <= x <= total p -> total p - x + blen work <= avail p ->
     x <= pd_pos p + blen work ->
     wpc SResp e (response_finalize_work work)
        (mk_core (mk_dir stt x buf hdr clen lft chk StFinalize prev rcv) (set_pd_pos x p) o h)
        (good e SResp (mk_core (mk_dir stt (pd_pos p) buf hdr clen lft chk StFinalize prev rcv) p o h))).
  { intros work x G Hx Ha Hp. unfold response_finalize_work.
    assert (Av : avail p = total p - pd_pos p) by (unfold avail; now rewrite G).
    assert (Avx : forall y, avail (set_pd_pos y p) = total p - y) by (intro y; rewrite avail_pos, G; reflexivity).
    wstep. wstep; [kred|finish]. wstep. wstep. kred. cbv zeta. destruct (is_nil (buf ++ work)) eqn:En.
    - apply Fin; try reflexivity; unfold ok_core, wfp, bufsum; kred; rewrite ?total_pos; repeat split; try assumption; try lia; numb.
    - rewrite is_nil_blen, blen_app in En. wgo; try finish.
      apply Fin; try reflexivity; unfold ok_core, wfp, bufsum; kred; rewrite ?total_pos.
      + rewrite firstn_app, Nat.sub_diag, firstn_all. cbn [firstn]. rewrite app_nil_r. cbn [app].
        destruct (_ <? _) eqn:El; repeat split; try assumption; try lia; numb.
      + rewrite firstn_app, Nat.sub_diag, firstn_all. cbn [firstn]. rewrite app_nil_r. cbn [app].
        change (set_pd_pos ?a (set_pd_pos x p)) with (set_pd_pos a p). rewrite Avx, blen_app.
        destruct (_ <? _) eqn:El; lia. }
  destruct (pd_is_gap p) eqn:G.
  - apply Fin; try reflexivity; unfold ok_core, wfp, bufsum; kred; repeat split; try assumption; numb.
  - assert (G0 : pd_gap p = None) by (unfold pd_is_gap in G; destruct (pd_gap p); [discriminate|reflexivity]).
    pose proof (avail_nogap _ G) as Av.
    destruct (sstate_eqb stt SsClosed) eqn:Es.
    + apply sstate_eqb_eq in Es. destruct (Cl Es) as [_ T0].
      specialize (Work (pd_as_slice p) (pd_pos p)). replace (set_pd_pos (pd_pos p) p) with p in Work by (destruct p; reflexivity).
      apply Work; lia || assumption.
    + destruct (pd_as_slice p) as [|ch w] eqn:En.
      * apply Fin; try reflexivity; unfold ok_core, wfp, bufsum; kred; repeat split; try assumption; numb.
      * rewrite <- En in *. destruct (ch =? 10).
        { wstep. wstep. kred. apply Work; lia || assumption. }
        destruct (take_till_lf _) as [rest line| |] eqn:E.
        -- line E. wstep. wstep. kred. apply Work; lia || assumption.
        -- absent.
        -- absent.
Qed.

Theorem step_response : forall c, ready e SResp c -> wpc SResp e handle_response_state c (good e SResp c).
Proof using.
  intros c Rd. unfold handle_response_state. apply wpc_bind, wpc_get_d. intro v. cbn [d_state set_d_recv].
  destruct (d_state (k_d c)) eqn:E.
  all: first [ now apply step_response_idle | now apply step_response_line
    | now apply step_response_headers | now apply step_response_body_determine
    | now apply step_body_chunked_data | now apply step_response_chunked_length | now apply step_response_chunked_data_end
    | now apply step_response_cl_known | now apply step_response_stream_close | now apply step_response_finalize | idtac ].
  all: apply wpc_fail; destruct Rd as ((W & C & B) & _); repeat split; try discriminate; try apply W; auto.
Qed.
End ResponseHandlers.
