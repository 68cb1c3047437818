(** Streams of well-formed responses, cut in any way: from call to call. *)
From Verif Require Import Base Spec SpecTx SpecMsg SpecResp ModelUtil ModelParsers ModelHeaders ModelState ModelTx ModelConn SpecConn ProofsBase ProofsParsers ProofsHeaders ProofsTx ProofsConn ProofsCore ProofsLoop ProofsHist ProofsEval ProofsBody ProofsHead ProofsFrame ProofsStream ProofsChunk ProofsMsg ProofsRStream ProofsRHead ProofsRBody.

(** * The events of a response, as they come *)
Definition ev_rstart (i : N) : event := mk_ev HResponseStart i PlNone.
Definition ev_rheader (i : N) (h : bytes) : event := mk_ev HResponseHeaderData i (PlData h).
Definition ev_rtrailer (i : N) (h : bytes) : event := mk_ev HResponseTrailerData i (PlData h).
Definition rline_events (i : N) : list event := [ev_rstart i; mk_ev HResponseLine i PlNone].
Definition rhead_events (i : N) (r : response) (es : list event) : Prop :=
  exists hs, concat hs = block_text (rp_lines r) ++ [13; 10] /\ es = rline_events i ++ map (ev_rheader i) hs ++ [mk_ev HResponseHeaders i PlNone].
Definition rbody_events (i : N) (r : response) (b : bytes) (es : list event) : Prop :=
  exists he bs, rhead_events i r he /\ concat bs = b /\ ~ In [] bs /\ es = he ++ flat_map (fun b => reply_piece i (PlData b)) bs.
Definition rseen_events (i : N) (r : response) (es : list event) : Prop :=
  exists be ts, rbody_events i r (rp_body r) be /\ reply_trailer_events i (rp_content r) ts /\ es = be ++ ts.
Definition rclose_events (i : N) : list event := [mk_ev HResponseComplete i PlNone; mk_ev HTransactionComplete i PlNone].
Definition rall_lines (r : response) : list hline := rp_lines r ++ trailer_of (rp_content r).
Lemma tr_of_rpiece i d tr : rpiece i d ++ tr = tr_of (reply_piece i d) tr. Proof. reflexivity. Qed.
Lemma good_reply_small m r : good_response m r -> blen (coded_text (rp_content r)) < 2 ^ 64 /\ blen (rp_body r) < 2 ^ 64.
Proof.
  intros (_ & _ & _ & _ & _ & _ & _ & Lb & _). split; [exact Lb|]. eapply N.le_lt_trans; [|exact Lb]. unfold rp_body, blen. pose proof (body_le (rp_content r)). lia.
Qed.
Lemma rready_done m r i t es : good_response m r -> rready m r (rall_lines r) (blen (rp_body r)) (blen (coded_text (rp_content r))) t -> rseen_events i r es ->
  asked m (rcompleted_tx t) /\ answered r (rcompleted_tx t) /\ response_events i r (es ++ rclose_events i).
Proof.
  intros G [R1 R2 R3 R4 R5 [R6 _] R7 R8 R9 R10 R11] (be & ts & (he & bs & (hs & H1 & ->) & H2 & H3 & ->) & Ht & ->). destruct (good_reply_small m r G) as [L1 L2]. split; [|split].
  - apply (asked_same _ _ _ R1). unfold rcompleted_tx. destruct (coding_eqb _ _); repeat split; reflexivity.
  - unfold rcompleted_tx. destruct (coding_eqb _ _); constructor; cbn; try assumption; try reflexivity; rewrite ?R8, ?R9; now apply wadd_small.
  - exists hs, bs, ts. split; [exact H1|]. split; [exact H2|]. split; [exact H3|]. split; [exact Ht|]. unfold rline_events, rclose_events. now rewrite <- !app_assoc.
Qed.
Lemma rready_closable m r ls n k t : rready m r ls n k t -> rclosable t.
Proof. intros [R1 R2 R3 R4 R5 R6 R7 R8 R9 R10 R11]. constructor; try assumption. apply R1. Qed.
Lemma rready_grow m r ls n k j t : n + j < 2 ^ 64 -> k + j < 2 ^ 64 -> rready m r ls n k t -> rready m r ls (n + j) (k + j) (grow SResp j t).
Proof.
  intros L1 L2 [R1 R2 R3 R4 R5 R6 R7 R8 R9 R10 R11]. constructor; cbn; try assumption; try (rewrite ?R8, ?R9; unfold wadd; apply N.mod_small; assumption).
  apply (asked_same _ _ _ R1). repeat split; reflexivity.
Qed.
Lemma rready_spent m r ls n k j t : k + j < 2 ^ 64 -> rready m r ls n k t -> rready m r ls n (k + j) (rspent j t).
Proof.
  intros L [R1 R2 R3 R4 R5 R6 R7 R8 R9 R10 R11]. constructor; cbn; try assumption; [|rewrite R9; unfold wadd; apply N.mod_small; exact L].
  apply (asked_same _ _ _ R1). repeat split; reflexivity.
Qed.
Lemma rready_prog m r ls n k t p : p <> PComplete -> rready m r ls n k t -> rready m r ls n k (upd_dir SResp (set_t_prog p) t).
Proof. intros L [R1 R2 R3 R4 R5 R6 R7 R8 R9 R10 R11]. constructor; cbn; try assumption. apply (asked_same _ _ _ R1). repeat split; reflexivity. Qed.

(** * A cut in a header block *)
Lemma hl_text_head l : good_hline l -> exists x q, hl_text l = x :: q /\ x <> 13.
Proof.
  intros (H1 & H2 & _). unfold hl_text. destruct (hl_name l) as [|x n]; [easy|]. inversion_clear H2 as [|? ? Hx _]. eexists x, _. split; [reflexivity|]. apply token_not in Hx. lia.
Qed.
Lemma rhead_cut ls : forall x y, Forall good_hline ls -> x ++ y = block_text ls ++ [13; 10] -> y <> [] ->
  exists ls1 ls2 q, ls = ls1 ++ ls2 /\ x = block_text ls1 ++ q /\ q ++ y = block_text ls2 ++ [13; 10] /\ rleft ls1 q /\ (ls2 <> [] \/ ls = []).
Proof.
  induction ls as [|l ls IH]; intros x y G E Ny.
  - exists [], [], x. cbn in E. split; [reflexivity|]. split; [reflexivity|]. split; [exact E|]. split; [|now right]. right. split; [reflexivity|].
    destruct x as [|x1 [|x2 [|]]]; cbn in E; [now left|injection E as -> _; now right| |]; injection E; intros; subst; congruence || discriminate.
  - inversion_clear G as [|? ? Gl Gs]. rewrite block_text_cons, <- app_assoc in E. apply app_split in E as [(m & E1 & E2) | (m & E1 & E2)].
    + exists [], (l :: ls), x. split; [reflexivity|]. split; [reflexivity|]. split; [rewrite E2, block_text_cons, E1; now rewrite <- !app_assoc|]. split; [|left; discriminate].
      destruct x as [|x0 x]; [right; split; [reflexivity|now left]|]. left. apply (pd_line SResp l); [exact Gl|left; now exists m|discriminate].
    + destruct m as [|m0 m].
      * rewrite app_nil_r in E1. subst x. exists [], (l :: ls), (hl_text l). split; [reflexivity|]. split; [reflexivity|]. split; [cbn [app] in E2; rewrite <- E2, block_text_cons; now rewrite <- app_assoc|]. split; [|left; discriminate].
        left. apply (pd_line SResp l); [exact Gl|left; exists []; now rewrite app_nil_r|]. destruct (hl_text_head l Gl) as (? & ? & -> & _). discriminate.
      * destruct ls as [|l' ls].
        { cbn in E2. destruct m as [|m1 m]; [|injection E2 as _ _ E2; destruct m, y; try discriminate; congruence]. injection E2 as <- E2. exists [], [l], x.
          split; [reflexivity|]. split; [reflexivity|]. split; [rewrite E1, <- E2, block_text_cons; change (block_text []) with (@nil N); rewrite <- !app_assoc; reflexivity|]. split; [|left; discriminate].
          left. apply (pd_line SResp l); [exact Gl|right; split; [reflexivity|exact E1]|]. subst x. destruct (hl_text l); discriminate. }
        destruct (IH (m0 :: m) y Gs) as (ls1 & ls2 & q & E0 & E3 & E4 & E5 & E6); [now symmetry|exact Ny|]. destruct E6 as [E6 | E6]; [|discriminate].
        exists (l :: ls1), ls2, q. split; [now rewrite E0|]. split; [rewrite E1, E3, block_text_cons; now rewrite <- app_assoc|]. split; [exact E4|]. split; [|now left].
        destruct E5 as [E5 | (-> & Hq)]; [now left|]. exfalso. cbn [app] in E0. change (block_text []) with (@nil N) in E3. cbn [app] in E3. destruct Hq as [-> | ->]; [discriminate|].
        subst ls2. inversion_clear Gs as [|? ? Gl' _]. destruct (hl_text_head l' Gl') as (z & w & Ez & Nz). rewrite block_text_cons, Ez in E4. cbn in E4. injection E4 as E4 _. congruence.
Qed.

(** * Between calls *)
Definition xtexts (xs : list (message * response)) : bytes := rtexts (map snd xs).
Definition rafter_line (r : response) : bytes := block_text (rp_lines r) ++ [13; 10] ++ content_text (rp_content r).
Lemma response_text_line r : response_text r = (line_body r ++ [13; 10]) ++ rafter_line r.
Proof. unfold response_text, head_text, rafter_line. rewrite status_line_body. now rewrite <- !app_assoc. Qed.
Lemma xtexts_cons m r xs : xtexts ((m, r) :: xs) = (line_body r ++ [13; 10]) ++ rafter_line r ++ xtexts xs.
Proof. unfold xtexts, rtexts. cbn [map snd concat]. rewrite response_text_line. now rewrite <- !app_assoc. Qed.
(** [p] is the part of the next status line that was seen already. *)
Definition rbegun (p : bytes) (xs : list (message * response)) : Prop :=
  match xs with [] => p = [] | (_, r) :: _ => exists l, p ++ l = line_body r end.
Inductive rpaused (i : N) (C : ctx) (tr : list (event * status)) : list (message * response) -> bytes -> st -> Prop :=
| ra_idle xs s : rresting [] i tr C s -> rpaused i C tr xs (xtexts xs) s
| ra_line m r xs p l t s : p ++ l = line_body r -> cx_table C i = Some t -> rmile StLine None p None i (started t) (tr_of [ev_rstart i] tr) C s ->
    rpaused i C tr ((m, r) :: xs) ((l ++ [13; 10]) ++ rafter_line r ++ xtexts xs) s
| ra_headers m r xs ls1 ls2 p q t hs s : rp_lines r = ls1 ++ ls2 -> p ++ q = block_text ls2 ++ [13; 10] -> q <> [] -> ls2 <> [] \/ rp_lines r = [] -> concat hs = block_text ls1 ++ p ->
    rready m r ls1 0 0 t -> t_prog (x_resp t) = PHeaders ->
    rmile StHeaders (Some HResponseHeaderData) [] (Some p) i t (tr_of (rline_events i ++ map (ev_rheader i) hs) tr) C s ->
    rpaused i C tr ((m, r) :: xs) (q ++ content_text (rp_content r) ++ xtexts xs) s
| ra_body m r xs b1 b2 t es s : rp_content r = Plain (b1 ++ b2) -> b2 <> [] -> rready m r (rp_lines r) (blen b1) (blen b1) t -> rbody_events i r b1 es ->
    rmile StClKnown None [] None i t (tr_of es tr) C s -> d_left (s_resp s) = Some (blen b2) ->
    rpaused i C tr ((m, r) :: xs) (b2 ++ xtexts xs) s
| ra_length m r xs cs la trl ds l t es s : rp_content r = Chunked cs la trl -> cs ++ [la] = ds ++ l -> l <> [] ->
    rready m r (rp_lines r) (blen (datas ds)) (blen (chunks_text ds)) t -> rbody_events i r (datas ds) es ->
    rmile StChunkedLength None [] None i t (tr_of es tr) C s ->
    rpaused i C tr ((m, r) :: xs) (chunks_text l ++ block_text trl ++ [13; 10] ++ xtexts xs) s
| ra_chunk m r xs cs la trl ds c l d1 d2 t es s : rp_content r = Chunked cs la trl -> cs ++ [la] = ds ++ c :: l -> ck_data c = d1 ++ d2 -> d2 <> [] ->
    rready m r (rp_lines r) (blen (datas ds ++ d1)) (blen (chunks_text ds ++ size_line c ++ d1)) t -> rbody_events i r (datas ds ++ d1) es ->
    rmile StChunkedData None [] None i t (tr_of es tr) C s -> d_chunk (s_resp s) = Some (blen d2) ->
    rpaused i C tr ((m, r) :: xs) (d2 ++ [13; 10] ++ chunks_text l ++ block_text trl ++ [13; 10] ++ xtexts xs) s
| ra_crlf m r xs cs la trl ds c l x y t es s : rp_content r = Chunked cs la trl -> cs ++ [la] = ds ++ c :: l -> ck_data c <> [] -> x ++ y = [13; 10] -> y <> [] ->
    rready m r (rp_lines r) (blen (datas ds ++ ck_data c)) (blen (chunks_text ds ++ size_line c ++ ck_data c ++ x)) t -> rbody_events i r (datas ds ++ ck_data c) es ->
    rmile StChunkedDataEnd None [] None i t (tr_of es tr) C s ->
    rpaused i C tr ((m, r) :: xs) (y ++ chunks_text l ++ block_text trl ++ [13; 10] ++ xtexts xs) s
| ra_trailer m r xs cs la trl ls1 ls2 p q t es hs s : rp_content r = Chunked cs la trl -> trl = ls1 ++ ls2 ->
    p ++ q = block_text ls2 ++ [13; 10] -> q <> [] -> ls2 <> [] \/ trl = [] -> concat hs = block_text ls1 ++ p ->
    rready m r (rp_lines r ++ ls1) (blen (rp_body r)) (blen (coded_text (rp_content r))) t -> t_prog (x_resp t) = PTrailer -> rbody_events i r (rp_body r) es ->
    rmile StHeaders (Some HResponseTrailerData) [] (Some p) i t (tr_of (es ++ map (ev_rtrailer i) hs) tr) C s ->
    rpaused i C tr ((m, r) :: xs) (q ++ xtexts xs) s
| ra_final m r m' r' xs p l t es s : p ++ l = line_body r' -> p <> [] ->
    rready m r (rall_lines r) (blen (rp_body r)) (blen (coded_text (rp_content r))) t -> rseen_events i r es ->
    rmile StFinalize None p None i t (tr_of es tr) C s ->
    rpaused i C tr ((m, r) :: (m', r') :: xs) ((l ++ [13; 10]) ++ rafter_line r' ++ xtexts xs) s.
(** The responses that were completed on the way; [d]: complete transactions are freed. *)
Inductive rtold (d : bool) : N -> ctx -> list (event * status) -> list (message * response) -> N -> ctx -> list (event * status) -> Prop :=
| rtold_nil i C tr : rtold d i C tr [] i C tr
| rtold_cons i C tr m r t es xs i' C' tr' : asked m t -> answered r t -> response_events i r es -> rtold d (i + 1) (rnext_ctx d i t C) (tr_of es tr) xs i' C' tr' ->
    rtold d i C tr ((m, r) :: xs) i' C' tr'.
Definition routcome (e : env) (i : N) (C : ctx) (tr : list (event * status)) (xs : list (message * response)) (S : bytes) (s : st) : Prop :=
  exists s' done xs' i' C' tr', rruns e s s' /\ xs = done ++ xs' /\ rtold (c_auto_destroy (e_cfg e)) i C tr done i' C' tr' /\ rpaused i' C' tr' xs' S s'.
Lemma routcome_next e i C tr xs S s s1 : step SResp e s = (ROk None, s1) -> routcome e i C tr xs S s1 -> routcome e i C tr xs S s.
Proof. intros H (s' & d & xs' & i' & C' & tr' & R & rest). exists s', d, xs', i', C', tr'. split; [exact (rruns_next _ _ _ _ H R)|exact rest]. Qed.
Lemma routcome_stop e i C tr xs S s s' : rruns e s s' -> rpaused i C tr xs S s' -> routcome e i C tr xs S s.
Proof. intros R P. exists s', [], xs, i, C, tr. split; [exact R|]. split; [reflexivity|]. split; [constructor|exact P]. Qed.
Lemma routcome_told e i C tr m r t es xs S s : asked m t -> answered r t -> response_events i r es ->
  routcome e (i + 1) (rnext_ctx (c_auto_destroy (e_cfg e)) i t C) (tr_of es tr) xs S s -> routcome e i C tr ((m, r) :: xs) S s.
Proof. intros A B M (s' & d & xs' & i' & C' & tr' & R & -> & T & P). exists s', ((m, r) :: d), xs', i', C', tr'. split; [exact R|]. split; [reflexivity|]. split; [econstructor; eassumption|exact P]. Qed.

(** Nothing of a response is in the transaction that would be taken for part of the next one. *)
Definition rnew (t : tx) : Prop :=
  merged [] (x_resp t) /\ t_hpc (x_resp t) = false /\ t_elen (x_resp t) = 0 /\ t_mlen (x_resp t) = 0 /\ t_cep (x_resp t) = CeNone.
Definition awaits (m : message) (t : tx) : Prop := asked m t /\ rnew t.
Lemma holds_awaits m t : holds m t -> awaits m t.
Proof. intros [A E]. split; [exact A|]. unfold rnew. rewrite (reply_resp _ _ E). repeat split; reflexivity. Qed.
Lemma rready_fresh m r t : awaits m t -> rready m r [] 0 0 (lined r (started t)).
Proof.
  intros (A & N1 & N2 & N3 & N4 & N5). constructor; try reflexivity; try assumption; try discriminate.
  apply (asked_same _ _ _ A). repeat split; reflexivity.
Qed.
(** The requests of [xs] were seen and the limits allow the responses. *)
Record rroom (e : env) (i : N) (C : ctx) (xs : list (message * response)) : Prop := {
  ro_good : Forall (fun x => good_message (fst x) /\ good_response (fst x) (snd x)) xs;
  ro_limit : Forall (fun x => blen (head_text (snd x)) <= c_field_limit (e_cfg e) /\ blen (block_text (trailer_of (rp_content (snd x)))) + 2 <= c_field_limit (e_cfg e)) xs;
  ro_idx : i + N.of_nat (length xs) < 2 ^ 64; ro_rest : snd (cx_rest C) = false;
  ro_held : forall k x, nth_error xs k = Some x -> exists t, cx_table C (i + N.of_nat k) = Some t /\ awaits (fst x) t }.
Lemma rroom_next d e i C t x xs : rroom e i C (x :: xs) -> rroom e (i + 1) (rnext_ctx d i t C) xs.
Proof.
  intros [R1 R2 R3 R4 R5]. inversion_clear R1. inversion_clear R2. cbn [length] in *. constructor; try assumption; cbn [cx_rest cx_table rnext_ctx]; try lia.
  intros k y Hk. destruct (R5 (S k) y Hk) as (u & Hu & Ho). exists u. split; [|exact Ho]. destruct (_ =? _) eqn:E; [lia|]. rewrite <- Hu. f_equal. lia.
Qed.
Definition rclean_at (xs : list (message * response)) (S : bytes) : Prop := forall before x after y, xs = before ++ x :: after -> reply_no_cut (snd x) y -> S <> y ++ xtexts after.
Lemma rclean_next x xs S : rclean_at (x :: xs) S -> rclean_at xs S.
Proof. intros H b z a y ->. apply (H (x :: b) z a y). reflexivity. Qed.
(** Nothing of what follows a response whose last block is empty is in [rest]. *)
Definition apart_at (xs : list (message * response)) (rest S : bytes) : Prop := forall before x after y tail, xs = before ++ x :: after -> SpecResp.bare (snd x) ->
  rest = y ++ tail -> y <> [] -> tail ++ S = xtexts after -> tail = [].
Lemma apart_next x xs rest S : apart_at (x :: xs) rest S -> apart_at xs rest S.
Proof. intros H b z a y tl ->. apply (H (x :: b) z a y tl). reflexivity. Qed.
Lemma apart_tail xs z rest S : apart_at xs (z ++ rest) S -> apart_at xs rest S.
Proof. intros H b x a y tl E B -> Ny. apply (H b x a (z ++ y) tl E B); [now rewrite app_assoc|]. destruct z; [exact Ny|discriminate]. Qed.
Definition ridle_goes (e : env) (xs : list (message * response)) : Prop := forall i C tr p s a rest k cb S, rroom e i C xs -> rclean_at xs S -> apart_at xs rest S -> rresting p i tr C s -> rest_of a rest k cb s ->
  rbegun p xs -> p ++ rest ++ S = xtexts xs -> rest <> [] -> routcome e i C tr xs S s.
Lemma good_status_of m r : good_response m r -> good_status r.
Proof. intros (H1 & H2 & H3 & H4 & H5 & _). split; [tauto|]. split; [tauto|]. split; [lia|]. split; assumption. Qed.
Lemma cut_line a y l : a ++ y = l ++ [13; 10] -> y <> [] -> y <> [10] -> exists l', y = l' ++ [13; 10] /\ l = a ++ l'.
Proof.
  intros E N1 N2. apply app_split in E as [(z & E1 & E2) | (z & E1 & E2)]; [now exists z|]. destruct z as [|z0 [|z1 z]]; cbn in E2.
  - exists []. rewrite app_nil_r in *. split; [now symmetry|now symmetry].
  - injection E2 as _ E2. now symmetry in E2.
  - injection E2 as _ _ E2. symmetry in E2. apply app_eq_nil in E2 as [_ E2]. contradiction.
Qed.
Lemma xtexts_head xs : xtexts xs = [] \/ exists z, xtexts xs = 72 :: 84 :: z.
Proof. destruct xs as [|[m r] xs]; [now left|]. right. rewrite xtexts_cons. eexists. reflexivity. Qed.
Lemma after_smooth xs body tail S : smooth body -> body ++ xtexts xs = tail ++ S -> after_ok SResp tail.
Proof.
  intros [H1 H2] E. right. split.
  - intros r ->. destruct body as [|b body]; cbn in E.
    + destruct (xtexts_head xs) as [Z | (z & Z)]; rewrite Z in E; discriminate E.
    + injection E as -> _. now apply (H1 body).
  - intros b c r Hb Hc ->. destruct body as [|b0 [|b1 body]]; cbn in E.
    + destruct (xtexts_head xs) as [Z | (z & Z)]; rewrite Z in E; [discriminate E|]. injection E as <- _. destruct Hb as [Hb|Hb]; discriminate Hb.
    + injection E as -> E. destruct (xtexts_head xs) as [Z | (z & Z)]; rewrite Z in E; [discriminate E|]. injection E as <- _. destruct Hc as [Hc|Hc]; discriminate Hc.
    + injection E as -> -> _. now apply (H2 b c body).
Qed.
Lemma smooth_nil : smooth []. Proof. split; [discriminate|]. discriminate. Qed.
Section RFrom.
Variables (e : env) (m : message) (r : response) (xs : list (message * response)).
Hypothesis Y : yes e.
Hypothesis IH : ridle_goes e xs.
Variables (i : N) (C : ctx) (tr : list (event * status)).
Hypothesis Rm : rroom e i C ((m, r) :: xs).
Lemma ro_good1 : good_response m r. Proof using Rm. destruct Rm as [G _ _ _ _]. now inversion_clear G. Qed.
Lemma ro_asked1 : good_message m. Proof using Rm. destruct Rm as [G _ _ _ _]. now inversion_clear G. Qed.
Lemma ro_next_idx : i + 1 < 2 ^ 64. Proof using Rm. pose proof (ro_idx _ _ _ _ Rm) as H. cbn [length] in H. lia. Qed.
Lemma ro_line x : In x ((m, r) :: xs) -> blen (status_line_text (snd x)) <= c_field_limit (e_cfg e).
Proof using Rm.
  intro I. pose proof (ro_limit _ _ _ _ Rm) as H. rewrite Forall_forall in H. specialize (H _ I). destruct H as [H _]. unfold head_text, blen in *. rewrite !app_length in H. lia.
Qed.
Lemma ro_good_in x : In x ((m, r) :: xs) -> good_response (fst x) (snd x).
Proof using Rm. intro I. pose proof (ro_good _ _ _ _ Rm) as H. rewrite Forall_forall in H. now apply H. Qed.
Lemma rline_cut S m' r' after rest p l y : rclean_at ((m, r) :: xs) S -> (exists before, (m, r) :: xs = before ++ (m', r') :: after) -> rest ++ y = l ++ [13; 10] -> y <> [] -> S = y ++ rafter_line r' ++ xtexts after ->
  p ++ l = line_body r' -> exists l', y = l' ++ [13; 10] /\ (p ++ rest) ++ l' = line_body r'.
Proof using.
  intros Cl (b & Eb) E Ny ES El. destruct (cut_line _ _ _ E Ny) as (l' & -> & ->).
  - intros ->. apply (Cl b (m', r') after ([10] ++ block_text (rp_lines r') ++ [13; 10] ++ content_text (rp_content r')) Eb); [apply rn_line|]. rewrite ES. unfold rafter_line. now rewrite <- !app_assoc.
  - exists l'. split; [reflexivity|]. now rewrite <- app_assoc.
Qed.
Lemma plain_part p q r' : good_status r' -> p ++ q = line_body r' -> plain_line p.
Proof using. intros G E. pose proof (line_body_plain r' G) as H. rewrite <- E in H. now apply Forall_app in H. Qed.
Lemma plain_no_lf p : plain_line p -> ~ In 10 p.
Proof using. intros H I. unfold plain_line in H. rewrite Forall_forall in H. specialize (H _ I). lia. Qed.
Lemma rfrom_final S p s a rest k cb t es : rclean_at ((m, r) :: xs) S -> apart_at ((m, r) :: xs) rest S -> rready m r (rall_lines r) (blen (rp_body r)) (blen (coded_text (rp_content r))) t -> rseen_events i r es -> rmile StFinalize None p None i t (tr_of es tr) C s ->
  rest_of a rest k cb s -> rbegun p xs -> p ++ rest ++ S = xtexts xs -> p = [] \/ (k = 0 /\ rest <> []) -> routcome e i C tr ((m, r) :: xs) S s.
Proof using Y IH Rm.
  intros Cl Ap Rd Es M R Bg E Hk. destruct (rready_done m r i t es ro_good1 Rd Es) as (Ho & Ha & Me). pose proof (ro_rest _ _ _ _ Rm) as Rr.
  destruct rest as [|r0 rest].
  - destruct Hk as [-> | [_ Hk]]; [|congruence]. cbn [app] in E.
    destruct (rs_final_end e C s a _ k cb i t Y M Rr (rready_closable _ _ _ _ _ _ Rd) ro_next_idx R) as (s1 & H1 & R1 & Q1).
    apply (routcome_next _ _ _ _ _ _ _ _ H1). apply (routcome_told _ _ _ _ _ _ _ _ _ _ _ Ho Ha Me). destruct (rs_rest e _ _ _ s1 a k cb Q1 R1) as (s2 & H2 & Q2).
    apply (routcome_stop _ _ _ _ _ _ _ _ H2). rewrite E. constructor. rewrite tr_of_app. exact Q2.
  - assert (Exs : exists m' r' xs', xs = (m', r') :: xs') by (destruct xs as [|[m' r'] xs']; [destruct p; discriminate E|now exists m', r', xs']). destruct Exs as (m' & r' & xs' & Exs).
    assert (I' : In (m', r') ((m, r) :: xs)) by (rewrite Exs; right; now left). rewrite Exs in Bg, E. destruct Bg as (l & El).
    pose proof (good_status_of _ _ (ro_good_in _ I')) as G'. cbn [snd] in G'. pose proof (ro_line _ I') as Lim. cbn [snd] in Lim.
    assert (Eq : p ++ (l ++ [13; 10]) = status_line_text r') by (rewrite status_line_body, <- El, app_assoc; reflexivity).
    rewrite xtexts_cons, <- El, <- !app_assoc in E. apply app_inv_head in E. rewrite (app_assoc l) in E.
    assert (Fin : forall tail, r0 :: rest = (l ++ [13; 10]) ++ tail -> tail ++ S = rafter_line r' ++ xtexts xs' -> routcome e i C tr ((m, r) :: xs) S s).
    { intros tail Et E2. rewrite Et in R.
      destruct (rs_final_line e C s a _ p (l ++ [13; 10]) tail r' k cb i t Y M Rr (rready_closable _ _ _ _ _ _ Rd) ro_next_idx G' R Eq) as (s1 & H1 & R1 & Q1); [destruct l; discriminate|destruct l as [|? [|]]; discriminate|destruct Hk as [Hk | [Hk _]]; [now left|now right]|exact Lim|].
      apply (routcome_next _ _ _ _ _ _ _ _ H1). apply (routcome_told _ _ _ _ _ _ _ _ _ _ _ Ho Ha Me). rewrite <- Et in R1.
      apply (IH _ _ _ p s1 a (r0 :: rest) k cb S); [exact (rroom_next _ _ _ _ _ _ _ Rm)|exact (rclean_next _ _ _ Cl)|exact (apart_next _ _ _ _ Ap)|rewrite tr_of_app; exact Q1|exact R1|rewrite Exs; now exists l| |discriminate].
      rewrite Exs, xtexts_cons, <- El, Et, <- !app_assoc. do 3 f_equal. exact E2. }
    apply app_split in E as [(y & E1 & E2) | (y & E1 & E2)]; [|apply (Fin y); [exact E1|now symmetry]].
    destruct y as [|y0 y]; [rewrite app_nil_r in E1; apply (Fin []); [now rewrite app_nil_r|exact E2]|].
    destruct (rline_cut S m' r' xs' (r0 :: rest) p l (y0 :: y) Cl) as (l' & El' & Ep); [exists [(m, r)]; now rewrite Exs|now symmetry|discriminate|exact E2|exact El|].
    destruct (rs_final_part e C s a _ p (r0 :: rest) k cb i t M R) as (s1 & H1 & Q1); [|discriminate| |].
    + apply plain_no_lf. apply (plain_part _ l' r' G') in Ep. now apply Forall_app in Ep.
    + etransitivity; [|exact Lim]. rewrite status_line_body, <- Ep. unfold blen. rewrite !app_length. lia.
    + apply (routcome_stop _ _ _ _ _ _ _ _ H1). rewrite E2, El', Exs. apply (ra_final _ _ _ m r m' r' xs' (p ++ r0 :: rest) l' t es); try assumption. destruct p; discriminate.
Qed.
Lemma rbody_events_more b c es : rbody_events i r b es -> c <> [] -> rbody_events i r (b ++ c) (es ++ reply_piece i (PlData c)).
Proof using.
  intros (he & bs & H1 & H2 & H3 & ->) Nc. exists he, (bs ++ [c]). split; [exact H1|]. split; [rewrite concat_app, H2; cbn; now rewrite app_nil_r|]. split.
  - intro I. apply in_app_or in I as [I | [I | []]]; [contradiction|congruence].
  - now rewrite flat_map_snoc, app_assoc.
Qed.
Lemma rbegun_nil l : rbegun [] l.
Proof using. destruct l as [|[m' r'] l]; [reflexivity|]. now exists (line_body r'). Qed.
Lemma rready_lines n k t b : rp_content r = Plain b -> rready m r (rp_lines r) n k t -> rready m r (rall_lines r) n k t.
Proof using. intros E R. unfold rall_lines. rewrite E. cbn [trailer_of]. now rewrite app_nil_r. Qed.
Lemma rfrom_body S s a rest k cb t b1 b2 es : rclean_at ((m, r) :: xs) S -> apart_at ((m, r) :: xs) rest S -> rp_content r = Plain (b1 ++ b2) -> b2 <> [] -> rready m r (rp_lines r) (blen b1) (blen b1) t -> rbody_events i r b1 es ->
  rmile StClKnown None [] None i t (tr_of es tr) C s -> d_left (s_resp s) = Some (blen b2) -> rest_of a rest k cb s -> rest ++ S = b2 ++ xtexts xs -> routcome e i C tr ((m, r) :: xs) S s.
Proof using Y IH Rm.
  intros Cl Ap Ec Nb Rd Be M L R E. destruct (good_reply_small _ _ ro_good1) as [Lb _]. assert (Eb : rp_body r = b1 ++ b2) by (unfold rp_body; rewrite Ec; reflexivity). rewrite Ec in Lb. cbn [coded_text] in Lb. unfold blen in Lb. rewrite app_length in Lb.
  assert (Fin : forall tail, rest = b2 ++ tail -> xtexts xs = tail ++ S -> routcome e i C tr ((m, r) :: xs) S s).
  { intros tail -> Et. destruct (rs_body_last e C s a (tr_of es tr) b2 tail k cb i t Y M (ry_cep _ _ _ _ _ _ Rd) L R Nb) as (s1 & H1 & R1 & M1).
    apply (routcome_next _ _ _ _ _ _ _ _ H1). rewrite tr_of_rpiece, <- tr_of_app in M1. eapply rfrom_final with (p := []); [exact Cl|exact (apart_tail _ _ _ _ Ap)| | |exact M1|exact R1|apply rbegun_nil|symmetry; exact Et|now left].
    - apply (rready_lines _ _ _ _ Ec). rewrite Ec, Eb. cbn [coded_text].
      assert (Rd2 : rready m r (rp_lines r) (blen (b1 ++ b2)) (blen (b1 ++ b2)) (grow SResp (blen b2) t)).
      { replace (blen (b1 ++ b2)) with (blen b1 + blen b2) by (unfold blen; rewrite app_length; lia). apply rready_grow; [unfold blen; lia..|exact Rd]. }
      apply (rready_grow m r _ _ _ 0) in Rd2; [rewrite N.add_0_r in Rd2; exact Rd2|rewrite N.add_0_r; unfold blen; rewrite app_length; exact Lb..].
    - exists (es ++ reply_piece i (PlData b2)), []. split; [rewrite Eb; now apply rbody_events_more|]. rewrite Ec. split; [reflexivity|now rewrite app_nil_r]. }
  apply app_split in E as [(q & E1 & E2) | (q & E1 & E2)].
  - destruct q as [|x q].
    + rewrite app_nil_r in E1. subst b2. apply (Fin []); [now rewrite app_nil_r|symmetry; exact E2].
    + destruct rest as [|r0 rest].
      * destruct (rs_body_wait e C s a _ k cb i t _ M L R) as (s1 & H1 & M1 & L1). apply (routcome_stop _ _ _ _ _ _ _ _ H1). cbn [app] in E1. subst b2 S. eapply ra_body; eassumption.
      * destruct (rs_body_part e C s a (tr_of es tr) (r0 :: rest) k cb i t _ Y M (ry_cep _ _ _ _ _ _ Rd) L R) as (s1 & H1 & M1 & L1); [rewrite E1; unfold blen; rewrite app_length; cbn [length]; lia|].
        apply (routcome_stop _ _ _ _ _ _ _ _ H1). subst S. rewrite tr_of_rpiece, <- tr_of_app in M1.
        apply (ra_body _ _ _ m r xs (b1 ++ r0 :: rest) (x :: q) (grow SResp (blen (r0 :: rest)) t) (es ++ reply_piece i (PlData (r0 :: rest)))); [now rewrite Ec, E1, <- app_assoc|discriminate| |apply rbody_events_more; [exact Be|discriminate]|exact M1|].
        { replace (blen (b1 ++ r0 :: rest)) with (blen b1 + blen (r0 :: rest)) by (unfold blen; rewrite app_length; lia). apply rready_grow; [rewrite E1, app_length in Lb; unfold blen; lia..|exact Rd]. }
        rewrite L1. f_equal. rewrite E1. unfold blen. rewrite app_length. lia.
  - apply (Fin q); assumption.
Qed.
Section RChunks.
Variables (cs : list chunk) (la : chunk) (trl : list hline).
Hypothesis Ec : rp_content r = Chunked cs la trl.
Lemma rchunks_good : Forall good_chunk (cs ++ [la]) /\ Forall (fun c => ck_data c <> []) cs /\ ck_data la = [] /\ Forall good_hline trl.
Proof using Rm Ec. destruct ro_good1 as (_ & _ & _ & _ & _ & _ & _ & _ & G & _). rewrite Ec in G. exact G. Qed.
Lemma rcoded_small : blen (chunks_text (cs ++ [la])) < 2 ^ 64.
Proof using Rm Ec. destruct (good_reply_small _ _ ro_good1) as [L _]. rewrite Ec in L. exact L. Qed.
Lemma rchunk_pos ds c l : cs ++ [la] = ds ++ c :: l -> (ck_data c = [] /\ c = la /\ l = [] /\ ds = cs) \/ (ck_data c <> [] /\ exists c2, l = c2 ++ [la] /\ cs = ds ++ c :: c2).
Proof using Rm Ec.
  intro E. destruct rchunks_good as (_ & Nd & Ld & _). destruct l as [|x l _] using rev_ind.
  - apply app_inj_tail in E as [-> ->]. left. repeat split. exact Ld.
  - rewrite app_comm_cons, app_assoc in E. apply app_inj_tail in E as [E <-]. right. split; [|exists l; split; [reflexivity|exact E]].
    rewrite E in Nd. rewrite Forall_forall in Nd. apply Nd. apply in_or_app. right. now left.
Qed.
Lemma rdatas_all : datas cs = rp_body r. Proof using Ec. unfold rp_body. rewrite Ec. reflexivity. Qed.
Lemma rfrom_trailer S s a rest k t p q ls1 ls2 es hs : rclean_at ((m, r) :: xs) S -> apart_at ((m, r) :: xs) rest S -> trl = ls1 ++ ls2 ->
  opt_text p ++ q = block_text ls2 ++ [13; 10] -> q <> [] -> ls2 <> [] \/ trl = [] -> concat hs = block_text ls1 ++ opt_text p ->
  rready m r (rp_lines r ++ ls1) (blen (rp_body r)) (blen (coded_text (rp_content r))) t -> t_prog (x_resp t) = PTrailer -> rbody_events i r (rp_body r) es ->
  rmile StHeaders (Some HResponseTrailerData) [] p i t (tr_of (es ++ map (ev_rtrailer i) hs) tr) C s ->
  rest_of a rest k k s -> rest ++ S = q ++ xtexts xs -> routcome e i C tr ((m, r) :: xs) S s.
Proof using Y IH Rm Ec.
  intros Cl Ap El Eq Nq Hp Eh Rd Tp Be M R E. pose proof rchunks_good as (_ & _ & _ & Gt). rewrite El in Gt. apply Forall_app in Gt as [Gt1 Gt].
  assert (Gh : Forall good_hline (rp_lines r ++ ls1)) by (apply Forall_app; split; [apply ro_good1|exact Gt1]).
  assert (Fin : forall tail, rest = q ++ tail -> xtexts xs = tail ++ S -> routcome e i C tr ((m, r) :: xs) S s).
  { intros tail -> Et. assert (Eb : ends_block ls2 tail).
    { destruct ls2 as [|l0 ls2]; [right|left].
      - split; [reflexivity|]. destruct Hp as [Hp | Hp]; [congruence|]. apply (Ap [] (m, r) xs q tail eq_refl); [|reflexivity|exact Nq|now symmetry]. unfold SpecResp.bare. cbn [snd]. now rewrite Ec.
      - split; [discriminate|]. apply (after_smooth xs [] tail S smooth_nil Et). }
    destruct (rs_trailer e C s a ls2 _ p q tail k i t Y Gt Eb M (ry_hpc _ _ _ _ _ _ Rd) Tp R Nq Eq) as (s1 & H1 & R1 & M1). apply (routcome_next _ _ _ _ _ _ _ _ H1).
    eapply (rfrom_final S [] s1 a tail _ _ _ ((es ++ map (ev_rtrailer i) hs) ++ [ev_rtrailer i q; mk_ev HResponseTrailer i PlNone])); [exact Cl|exact (apart_tail _ _ _ _ Ap)| | |rewrite tr_of_app; exact M1|exact R1|apply rbegun_nil|symmetry; exact Et|now left].
    - replace (rall_lines r) with ((rp_lines r ++ ls1) ++ ls2) by (unfold rall_lines; rewrite Ec; cbn [trailer_of]; now rewrite El, app_assoc). now apply rready_more.
    - eexists es, _. split; [exact Be|]. rewrite Ec. split; [exists (hs ++ [q]); split; [|reflexivity]|].
      + rewrite concat_app, Eh, El. cbn [concat]. rewrite app_nil_r, <- app_assoc, Eq. unfold block_text. now rewrite map_app, concat_app, <- app_assoc.
      + rewrite map_app. cbn [map]. rewrite <- !app_assoc. reflexivity. }
  apply app_split in E as [(y & E1 & E2) | (y & E1 & E2)]; [|apply (Fin y); assumption].
  destruct y as [|y0 y]; [rewrite app_nil_r in E1; apply (Fin []); [now rewrite app_nil_r|symmetry; exact E2]|].
  rewrite E1, app_assoc in Eq. destruct (rhead_cut ls2 (opt_text p ++ rest) (y0 :: y) Gt Eq) as (l1 & l2 & q' & -> & E3 & E4 & E5 & E6); [discriminate|].
  apply Forall_app in Gt as [Gl1 _].
  destruct (rs_headers_part e C s a l1 _ p rest q' k i _ HResponseTrailerData Y Gl1 M (ry_hpc _ _ _ _ _ _ Rd) R E3 E5) as (s1 & H1 & M1).
  { pose proof (ro_limit _ _ _ _ Rm) as Lim. inversion_clear Lim as [|? ? [_ Lim1] _]. etransitivity; [|exact Lim1]. cbn [snd]. rewrite Ec, El. cbn [trailer_of]. unfold block_text in *. rewrite !map_app, !concat_app.
    apply (f_equal (@length N)) in E4. rewrite !app_length in E4. cbn [length] in E4. unfold blen. rewrite !app_length. lia. }
  apply (routcome_stop _ _ _ _ _ _ _ _ H1). subst S.
  apply (ra_trailer _ _ _ m r xs cs la trl (ls1 ++ l1) l2 q' (y0 :: y) (add_headers SResp (map ph_of l1) t) es (hs ++ [rest])); [exact Ec|now rewrite El, app_assoc|exact E4|discriminate| | | | |exact Be|].
  - destruct E6 as [E6 | E6]; [now left|]. destruct Hp as [Hp | Hp]; [congruence|now right].
  - rewrite concat_app, Eh. cbn [concat]. rewrite app_nil_r, <- app_assoc, E3. unfold block_text. now rewrite map_app, concat_app, <- app_assoc.
  - rewrite app_assoc. now apply rready_more.
  - destruct (add_headers_rgains (map ph_of l1) t) as ((rr & hh & Eg) & _). rewrite Eg. exact Tp.
  - rewrite (map_app (ev_rtrailer i)). cbn [map]. rewrite app_assoc, tr_of_app. exact M1.
Qed.
Definition rlength_goes (l : list chunk) : Prop := forall S s a rest k cb t ds es, rclean_at ((m, r) :: xs) S -> apart_at ((m, r) :: xs) rest S -> cs ++ [la] = ds ++ l -> l <> [] ->
  rready m r (rp_lines r) (blen (datas ds)) (blen (chunks_text ds)) t -> rbody_events i r (datas ds) es -> rmile StChunkedLength None [] None i t (tr_of es tr) C s ->
  rest_of a rest k cb s -> rest ++ S = chunks_text l ++ block_text trl ++ [13; 10] ++ xtexts xs -> routcome e i C tr ((m, r) :: xs) S s.
Lemma rfrom_crlf l S s a rest k cb t ds c x y es : rlength_goes l -> rclean_at ((m, r) :: xs) S -> apart_at ((m, r) :: xs) rest S -> cs ++ [la] = ds ++ c :: l -> ck_data c <> [] -> x ++ y = [13; 10] -> y <> [] ->
  rready m r (rp_lines r) (blen (datas ds ++ ck_data c)) (blen (chunks_text ds ++ size_line c ++ ck_data c ++ x)) t -> rbody_events i r (datas ds ++ ck_data c) es ->
  rmile StChunkedDataEnd None [] None i t (tr_of es tr) C s ->
  rest_of a rest k cb s -> rest ++ S = y ++ chunks_text l ++ block_text trl ++ [13; 10] ++ xtexts xs -> routcome e i C tr ((m, r) :: xs) S s.
Proof using Y Rm Ec.
  intros Lg Cl Ap Ep Nd Ex Ny Rd Be M R E. pose proof (chunk_small cs la ds c l (ck_data c) [] Ep ltac:(now rewrite app_nil_r)) as Sm. pose proof rcoded_small as Ls. unfold blen in Ls.
  assert (Sm' : (length (chunks_text ds ++ size_line c ++ ck_data c) + 2 <= length (chunks_text (cs ++ [la])))%nat) by (rewrite !app_length; destruct (ck_data c); [congruence|cbn [length] in *; lia]). clear Sm.
  assert (Lx : (length x + length y = 2)%nat) by (rewrite <- app_length, Ex; reflexivity).
  destruct (rchunk_pos _ _ _ Ep) as [(Z & _) | (_ & c2 & El & Ecs)]; [congruence|].
  assert (Gr : forall z, (length x + length z <= 2)%nat -> rready m r (rp_lines r) (blen (datas ds ++ ck_data c)) (blen (chunks_text ds ++ size_line c ++ ck_data c ++ x ++ z)) (rspent (blen z) t)).
  { intros z Lz. replace (blen (chunks_text ds ++ size_line c ++ ck_data c ++ x ++ z)) with (blen (chunks_text ds ++ size_line c ++ ck_data c ++ x) + blen z) by (unfold blen; rewrite !app_length; lia).
    apply rready_spent; [unfold blen; rewrite !app_length in *; lia|exact Rd]. }
  assert (Y10 : exists y', y = y' ++ [10] /\ ~ In 10 y').
  { destruct x as [|x0 [|x1 x]]; cbn in Ex.
    - subst y. exists [13]. split; [reflexivity|]. intros [[=]|[]].
    - injection Ex as _ ->. exists []. split; [reflexivity|intros []].
    - injection Ex as _ _ Ex. apply app_eq_nil in Ex as [_ Ex]. contradiction. }
  destruct Y10 as (y' & Ey & Ny10).
  assert (Fin : forall tail, rest = y ++ tail -> chunks_text l ++ block_text trl ++ [13; 10] ++ xtexts xs = tail ++ S -> routcome e i C tr ((m, r) :: xs) S s).
  { intros tail -> Et. rewrite Ey in R. destruct (rs_crlf e C s a _ y' tail k cb i t M Ny10 R) as (s1 & H1 & R1 & M1). rewrite <- Ey in M1, R1. apply (routcome_next _ _ _ _ _ _ _ _ H1).
    apply (Lg S s1 a tail (k + blen y) cb (rspent (blen y) t) (ds ++ [c]) es); [exact Cl|exact (apart_tail _ _ _ _ Ap)|now rewrite <- app_assoc|rewrite El; destruct c2; discriminate| | |exact M1|exact R1|now symmetry].
    + replace (blen (datas (ds ++ [c]))) with (blen (datas ds ++ ck_data c)) by (rewrite datas_app; unfold datas at 3; cbn [map concat]; now rewrite app_nil_r).
      replace (blen (chunks_text (ds ++ [c]))) with (blen (chunks_text ds ++ size_line c ++ ck_data c ++ x ++ y)); [apply Gr; lia|].
      rewrite Ex, chunks_text_app, chunks_text_cons. unfold data_text. change (chunks_text []) with (@nil N). destruct (ck_data c) as [|x0 y0]; [congruence|]. now rewrite app_nil_r.
    + rewrite datas_app. unfold datas at 2. cbn [map concat]. rewrite app_nil_r. exact Be. }
  apply app_split in E as [(z & E1 & E2) | (z & E1 & E2)]; [|apply (Fin z); assumption].
  destruct z as [|z0 z]; [rewrite app_nil_r in E1; apply (Fin []); [now rewrite app_nil_r|symmetry; exact E2]|].
  destruct (rs_crlf_wait e C s a _ rest k cb i t M) as (s1 & H1 & M1); [|exact R|].
  - intro I. destruct (exists_last (l := z0 :: z) ltac:(discriminate)) as (z' & w & Ew). rewrite Ew, app_assoc in E1. rewrite Ey in E1. apply app_inj_tail in E1 as [E1 _]. apply Ny10. rewrite E1. apply in_or_app. now left.
  - apply (routcome_stop _ _ _ _ _ _ _ _ H1). rewrite E2. apply (ra_crlf _ _ _ m r xs cs la trl ds c l (x ++ rest) (z0 :: z) (rspent (blen rest) t) es); try assumption; [now rewrite <- app_assoc, <- E1|discriminate|].
    apply Gr. rewrite E1, app_length in Lx. lia.
Qed.
Lemma rfrom_chunk l S s a rest k cb t ds c d1 d2 es : rlength_goes l -> rclean_at ((m, r) :: xs) S -> apart_at ((m, r) :: xs) rest S -> cs ++ [la] = ds ++ c :: l -> ck_data c = d1 ++ d2 -> d2 <> [] ->
  rready m r (rp_lines r) (blen (datas ds ++ d1)) (blen (chunks_text ds ++ size_line c ++ d1)) t -> rbody_events i r (datas ds ++ d1) es ->
  rmile StChunkedData None [] None i t (tr_of es tr) C s -> d_chunk (s_resp s) = Some (blen d2) ->
  rest_of a rest k cb s -> rest ++ S = d2 ++ [13; 10] ++ chunks_text l ++ block_text trl ++ [13; 10] ++ xtexts xs -> routcome e i C tr ((m, r) :: xs) S s.
Proof using Y Rm Ec.
  intros Lg Cl Ap Ep Ed Nd Rd Be M L R E. pose proof (chunk_small cs la ds c l d1 d2 Ep Ed) as Sm. pose proof rcoded_small as Ls. unfold blen in Ls. pose proof (concat_le ds) as Lc. fold (datas ds) in Lc.
  assert (Sm' : (length (chunks_text ds) + length (size_line c) + length d1 + length d2 <= length (chunks_text (cs ++ [la])))%nat) by (destruct (ck_data c); [destruct d1, d2; try discriminate; congruence|lia]). clear Sm.
  assert (Gr : forall d, (length d <= length d2)%nat -> rready m r (rp_lines r) (blen (datas ds ++ d1 ++ d)) (blen (chunks_text ds ++ size_line c ++ d1 ++ d)) (grow SResp (blen d) t)).
  { intros d Ld. replace (blen (datas ds ++ d1 ++ d)) with (blen (datas ds ++ d1) + blen d) by (unfold blen; rewrite !app_length; lia).
    replace (blen (chunks_text ds ++ size_line c ++ d1 ++ d)) with (blen (chunks_text ds ++ size_line c ++ d1) + blen d) by (unfold blen; rewrite !app_length; lia).
    apply rready_grow; [unfold blen; rewrite !app_length; lia..|exact Rd]. }
  assert (Fin : forall tail, rest = d2 ++ tail -> [13; 10] ++ chunks_text l ++ block_text trl ++ [13; 10] ++ xtexts xs = tail ++ S -> routcome e i C tr ((m, r) :: xs) S s).
  { intros tail -> Et. destruct (rs_chunk_last e C s a (tr_of es tr) d2 tail k cb i t Y M (ry_cep _ _ _ _ _ _ Rd) L R Nd) as (s1 & H1 & R1 & M1).
    apply (routcome_next _ _ _ _ _ _ _ _ H1). rewrite tr_of_rpiece, <- tr_of_app in M1.
    eapply (rfrom_crlf l S s1 a tail _ _ (grow SResp (blen d2) t) ds c [] [13; 10]); [exact Lg|exact Cl|exact (apart_tail _ _ _ _ Ap)|exact Ep|rewrite Ed; destruct d1, d2; try congruence; discriminate|reflexivity|discriminate|rewrite app_nil_r, Ed; apply Gr; apply Nat.le_refl| |exact M1|exact R1|symmetry; exact Et].
    rewrite Ed, app_assoc. apply rbody_events_more; [exact Be|exact Nd]. }
  apply app_split in E as [(q & E1 & E2) | (q & E1 & E2)].
  - destruct q as [|x q].
    + rewrite app_nil_r in E1. subst d2. apply (Fin []); [now rewrite app_nil_r|symmetry; exact E2].
    + destruct rest as [|r0 rest].
      * destruct (rs_chunk_wait e C s a _ k cb i t _ M L R) as (s1 & H1 & M1 & L1). apply (routcome_stop _ _ _ _ _ _ _ _ H1). cbn [app] in E1. subst d2 S. eapply ra_chunk; eassumption.
      * destruct (rs_chunk_part e C s a (tr_of es tr) (r0 :: rest) k cb i t _ Y M (ry_cep _ _ _ _ _ _ Rd) L R) as (s1 & H1 & M1 & L1); [rewrite E1; unfold blen; rewrite app_length; cbn [length]; lia|].
        apply (routcome_stop _ _ _ _ _ _ _ _ H1). subst S. rewrite tr_of_rpiece, <- tr_of_app in M1.
        apply (ra_chunk _ _ _ m r xs cs la trl ds c l (d1 ++ r0 :: rest) (x :: q) (grow SResp (blen (r0 :: rest)) t) (es ++ reply_piece i (PlData (r0 :: rest)))); [exact Ec|exact Ep|now rewrite Ed, E1, <- app_assoc|discriminate| |rewrite app_assoc; apply rbody_events_more; [exact Be|discriminate]|exact M1|].
        { apply Gr. rewrite E1, app_length. lia. }
        rewrite L1. f_equal. rewrite E1. unfold blen. rewrite app_length. lia.
  - apply (Fin q); assumption.
Qed.
Lemma rfrom_length l : rlength_goes l.
Proof using Y IH Rm Ec.
  induction l as [|c l Lg]; intros S s a rest k cb t ds es Cl Ap Ep Nl Rd Be M R E; [congruence|]. clear Nl. pose proof rcoded_small as Ls. unfold blen in Ls.
  assert (Gc : good_chunk c) by (destruct rchunks_good as (G & _); rewrite Ep in G; apply Forall_app in G as [_ G]; now inversion_clear G).
  assert (Sm : (length (chunks_text ds) + length (size_line c) <= length (chunks_text (cs ++ [la])))%nat) by (rewrite Ep, chunks_text_app, chunks_text_cons, !app_length; lia).
  assert (Rd2 : rready m r (rp_lines r) (blen (datas ds)) (blen (chunks_text ds ++ size_line c)) (rspent (blen (size_line c)) t)).
  { replace (blen (chunks_text ds ++ size_line c)) with (blen (chunks_text ds) + blen (size_line c)) by (unfold blen; rewrite app_length; lia). apply rready_spent; [unfold blen; lia|exact Rd]. }
  assert (Fin : forall tail, rest = size_line c ++ tail -> data_text c ++ chunks_text l ++ block_text trl ++ [13; 10] ++ xtexts xs = tail ++ S -> routcome e i C tr ((m, r) :: xs) S s).
  { intros tail -> Et. destruct (rchunk_pos _ _ _ Ep) as [(Zd & -> & -> & ->) | (Nd & c2 & El & Ecs)].
    - destruct (rs_length_last e C s a _ la tail k cb i t M Gc Zd R) as (s1 & H1 & R1 & M1). apply (routcome_next _ _ _ _ _ _ _ _ H1).
      eapply (rfrom_trailer S s1 a tail _ (upd_dir SResp (set_t_prog PTrailer) (rspent (blen (size_line la)) t)) None (block_text trl ++ [13; 10]) [] trl es []); [exact Cl|exact (apart_tail _ _ _ _ Ap)|reflexivity|reflexivity|destruct (block_text trl); discriminate| |reflexivity| | |rewrite <- rdatas_all; exact Be| |exact R1|].
      + destruct trl; [now right|left; discriminate].
      + rewrite app_nil_r. apply rready_prog; [discriminate|]. rewrite rdatas_all in Rd2. rewrite Ec. cbn [coded_text].
        replace (chunks_text (cs ++ [la])) with (chunks_text cs ++ size_line la); [exact Rd2|]. rewrite chunks_text_app, chunks_text_cons. unfold data_text. rewrite Zd. change (chunks_text []) with (@nil N). now rewrite !app_nil_r.
      + reflexivity.
      + cbn [map]. rewrite app_nil_r. exact M1.
      + unfold data_text in Et. rewrite Zd in Et. rewrite <- Et. change (chunks_text []) with (@nil N). cbn [app]. now rewrite <- !app_assoc.
    - destruct (rs_length e C s a _ c tail k cb i t M Gc Nd R) as (s1 & H1 & R1 & M1 & L1). apply (routcome_next _ _ _ _ _ _ _ _ H1).
      eapply (rfrom_chunk l S s1 a tail _ _ _ ds c [] (ck_data c) es); [exact Lg|exact Cl|exact (apart_tail _ _ _ _ Ap)|exact Ep|reflexivity|exact Nd|rewrite !app_nil_r; exact Rd2|rewrite app_nil_r; exact Be|exact M1|exact L1|exact R1|].
      rewrite <- Et. unfold data_text. destruct (ck_data c); [congruence|]. now rewrite <- !app_assoc. }
  rewrite chunks_text_cons, <- !app_assoc in E. apply app_split in E as [(y & E1 & E2) | (y & E1 & E2)]; [|apply (Fin y); assumption].
  destruct y as [|y0 y]; [rewrite app_nil_r in E1; apply (Fin []); [now rewrite app_nil_r|symmetry; exact E2]|].
  destruct rest as [|r0 rest].
  - destruct (rs_length_wait e C s a _ k cb i t M R) as (s1 & H1 & M1). apply (routcome_stop _ _ _ _ _ _ _ _ H1). cbn [app] in E1. subst S.
    replace ((y0 :: y) ++ data_text c ++ chunks_text l ++ block_text trl ++ [13; 10] ++ xtexts xs) with (chunks_text (c :: l) ++ block_text trl ++ [13; 10] ++ xtexts xs) by (rewrite chunks_text_cons, <- !app_assoc, E1; reflexivity).
    eapply ra_length; try eassumption. discriminate.
  - exfalso. apply (Cl [] (m, r) xs ((y0 :: y) ++ data_text c ++ chunks_text l ++ block_text trl ++ [13; 10]) eq_refl); [apply (rn_size r cs la trl ds c l (r0 :: rest)); [exact Ec|exact Ep|exact E1|discriminate|discriminate]|].
    rewrite E2, <- !app_assoc. reflexivity.
Qed.
End RChunks.
Lemma rbody_ends : ends_block (rp_lines r) [] /\ (forall tail S, content_text (rp_content r) ++ xtexts xs = tail ++ S -> rp_lines r <> [] -> after_ok SResp tail) /\ (rp_lines r = [] -> rp_content r = Plain []).
Proof using Rm.
  destruct ro_good1 as (_ & _ & _ & _ & _ & _ & _ & _ & _ & Fr & _). split; [|split].
  - destruct (rp_lines r); [now right|left]. split; [discriminate|]. right. split; discriminate.
  - intros tail S E _. destruct Fr as [(_ & Ec) | (_ & _ & Sm)]; [rewrite Ec in E; exact (after_smooth xs [] tail S smooth_nil E)|exact (after_smooth xs _ tail S Sm E)].
  - intro El. destruct Fr as [(_ & Ec) | (_ & D & _)]; [exact Ec|]. exfalso. rewrite El in D.
    destruct (rp_content r); [destruct D as ((l & (b9 & a9 & Eb & _) & _) & _)|destruct D as (l & (b9 & a9 & Eb & _) & _)]; destruct b9; discriminate Eb.
Qed.
Lemma rfrom_headers S s a rest k t p q ls1 ls2 hs : rclean_at ((m, r) :: xs) S -> apart_at ((m, r) :: xs) rest S -> rp_lines r = ls1 ++ ls2 ->
  opt_text p ++ q = block_text ls2 ++ [13; 10] -> q <> [] -> ls2 <> [] \/ rp_lines r = [] -> concat hs = block_text ls1 ++ opt_text p ->
  rready m r ls1 0 0 t -> t_prog (x_resp t) = PHeaders ->
  rmile StHeaders (Some HResponseHeaderData) [] p i t (tr_of (rline_events i ++ map (ev_rheader i) hs) tr) C s ->
  rest_of a rest k k s -> rest ++ S = q ++ content_text (rp_content r) ++ xtexts xs -> routcome e i C tr ((m, r) :: xs) S s.
Proof using Y IH Rm.
  intros Cl Ap El Eq Nq Hp Eh Rd Tp M R E. pose proof ro_good1 as Gr. assert (Gl : Forall good_hline (rp_lines r)) by apply Gr. rewrite El in Gl. apply Forall_app in Gl as [Gl1 Gl].
  destruct rbody_ends as (_ & Ao & En).
  assert (Fin : forall tail, rest = q ++ tail -> content_text (rp_content r) ++ xtexts xs = tail ++ S -> routcome e i C tr ((m, r) :: xs) S s).
  { intros tail -> Et. assert (Eb : ends_block ls2 tail).
    { destruct ls2 as [|l0 ls2]; [right|left].
      - split; [reflexivity|]. destruct Hp as [Hp | Hp]; [congruence|]. pose proof (En Hp) as Ec. apply (Ap [] (m, r) xs q tail eq_refl); [|reflexivity|exact Nq|]; [unfold SpecResp.bare; cbn [snd]; now rewrite Ec|]. rewrite Ec in Et. now symmetry.
      - split; [discriminate|]. apply (Ao tail S Et). rewrite El. destruct ls1; discriminate. }
    destruct (rs_headers e C s a ls2 _ p q tail k i t Gl Eb M (ry_hpc _ _ _ _ _ _ Rd) Tp R Nq Eq) as (s1 & H1 & R1 & Sk & M1). apply (routcome_next _ _ _ _ _ _ _ _ H1).
    assert (Rd1 : rready m r (rp_lines r) 0 0 (add_headers SResp (map ph_of ls2) t)) by (rewrite El; now apply rready_more).
    assert (Tp1 : t_prog (x_resp (add_headers SResp (map ph_of ls2) t)) = PHeaders) by (destruct (add_headers_rgains (map ph_of ls2) t) as ((rr & hh & Eg) & _); rewrite Eg; exact Tp).
    destruct (rs_determine e C s1 a m r _ q tail (k + blen q) k i _ Y ro_asked1 Gr M1 R1 eq_refl Sk Rd1 Tp1) as (s2 & t2 & x & H2 & R2 & Rd2 & Go & M2). apply (routcome_next _ _ _ _ _ _ _ _ H2).
    clear H1 H2 M M1 R R1 Sk Rd1 Tp1 Rd Tp. set (es := (rline_events i ++ map (ev_rheader i) hs) ++ [ev_rheader i q; mk_ev HResponseHeaders i PlNone]).
    assert (M3 : rmile x None [] None i t2 (tr_of es tr) C s2) by (unfold es; rewrite tr_of_app; exact M2).
    assert (He : rhead_events i r es).
    { exists (hs ++ [q]). split; [rewrite concat_app, Eh, El; cbn [concat]; rewrite app_nil_r, <- app_assoc, Eq; unfold block_text; now rewrite map_app, concat_app, <- app_assoc|].
      unfold es. rewrite map_app. cbn [map]. now rewrite <- !app_assoc. }
    assert (Be : rbody_events i r [] es) by (exists es, []; repeat split; [exact He|intros []|cbn; now rewrite app_nil_r]).
    apply apart_tail in Ap. destruct (rp_content r) as [[|b0 b]|cs la trl] eqn:Ec; cbn [goes_on] in Go.
    - subst x. eapply (rfrom_final S [] s2 a tail _ _ t2 es); [exact Cl|exact Ap| | |exact M3|exact R2|apply rbegun_nil|now symmetry|now left].
      + apply (rready_lines _ _ _ _ Ec). unfold rp_body. rewrite Ec. exact Rd2.
      + exists es, []. unfold rp_body. rewrite Ec. split; [exact Be|]. split; [reflexivity|now rewrite app_nil_r].
    - destruct Go as (-> & L2 & _). eapply (rfrom_body S s2 a tail _ _ t2 [] (b0 :: b) es); [exact Cl|exact Ap|exact Ec|discriminate|exact Rd2|exact Be|exact M3|exact L2|exact R2|].
      unfold content_text in Et. cbn [coded_text] in Et. rewrite app_nil_r in Et. now symmetry.
    - subst x. eapply (rfrom_length cs la trl Ec (cs ++ [la]) S s2 a tail _ _ t2 [] es); [exact Cl|exact Ap|reflexivity|destruct cs; discriminate|exact Rd2|exact Be|exact M3|exact R2|].
      rewrite <- Et. unfold content_text. cbn [coded_text]. now rewrite <- !app_assoc. }
  apply app_split in E as [(y & E1 & E2) | (y & E1 & E2)]; [|apply (Fin y); assumption].
  destruct y as [|y0 y]; [rewrite app_nil_r in E1; apply (Fin []); [now rewrite app_nil_r|symmetry; exact E2]|].
  rewrite E1, app_assoc in Eq. destruct (rhead_cut ls2 (opt_text p ++ rest) (y0 :: y) Gl Eq) as (l1 & l2 & q' & -> & E3 & E4 & E5 & E6); [discriminate|].
  apply Forall_app in Gl as [Gl2 _].
  destruct (rs_headers_part e C s a l1 _ p rest q' k i _ _ Y Gl2 M (ry_hpc _ _ _ _ _ _ Rd) R E3 E5) as (s1 & H1 & M1).
  { pose proof (ro_limit _ _ _ _ Rm) as Lim. inversion_clear Lim as [|? ? [Lim1 _] _]. etransitivity; [|exact Lim1]. cbn [snd]. unfold head_text. rewrite El. unfold block_text in *. rewrite !map_app, !concat_app, <- !app_assoc.
    rewrite <- E4. unfold blen. rewrite !app_length. lia. }
  apply (routcome_stop _ _ _ _ _ _ _ _ H1). subst S.
  apply (ra_headers _ _ _ m r xs (ls1 ++ l1) l2 q' (y0 :: y) (add_headers SResp (map ph_of l1) t) (hs ++ [rest])); [now rewrite El, app_assoc|exact E4|discriminate| | | | |].
  - destruct E6 as [E6 | E6]; [now left|]. destruct Hp as [Hp | Hp]; [congruence|now right].
  - rewrite concat_app, Eh. cbn [concat]. rewrite app_nil_r, <- app_assoc, E3. unfold block_text. now rewrite map_app, concat_app, <- app_assoc.
  - now apply rready_more.
  - destruct (add_headers_rgains (map ph_of l1) t) as ((rr & hh & Eg) & _). rewrite Eg. exact Tp.
  - rewrite (map_app (ev_rheader i)). cbn [map]. rewrite app_assoc, tr_of_app. exact M1.
Qed.
Lemma rfrom_line S s a rest k cb p l t : rclean_at ((m, r) :: xs) S -> apart_at ((m, r) :: xs) rest S -> p ++ l = line_body r -> cx_table C i = Some t -> rmile StLine None p None i (started t) (tr_of [ev_rstart i] tr) C s ->
  rest_of a rest k cb s -> rest ++ S = (l ++ [13; 10]) ++ rafter_line r ++ xtexts xs -> routcome e i C tr ((m, r) :: xs) S s.
Proof using Y IH Rm.
  intros Cl Ap El Ct M R E. pose proof (good_status_of _ _ ro_good1) as Gs. pose proof (ro_line (m, r) (or_introl eq_refl)) as Lim. cbn [snd] in Lim.
  assert (Fin : forall tail, rest = (l ++ [13; 10]) ++ tail -> rafter_line r ++ xtexts xs = tail ++ S -> routcome e i C tr ((m, r) :: xs) S s).
  { intros tail -> Et. destruct (rs_line e C s a r _ p l tail k cb i _ Y Gs M R El Lim) as (s1 & H1 & R1 & M1). apply (routcome_next _ _ _ _ _ _ _ _ H1).
    destruct (ro_held _ _ _ _ Rm 0%nat (m, r) eq_refl) as (t0 & Ht0 & Ha). rewrite N.add_0_r, Ct in Ht0. injection Ht0 as <-. cbn [fst] in Ha.
    eapply (rfrom_headers S s1 a tail _ (lined r (started t)) None (block_text (rp_lines r) ++ [13; 10]) [] (rp_lines r) []); [exact Cl|exact (apart_tail _ _ _ _ Ap)|reflexivity|reflexivity|destruct (block_text _); discriminate| |reflexivity| |reflexivity|exact M1|exact R1|].
    - destruct (rp_lines r); [now right|left; discriminate].
    - exact (rready_fresh m r t Ha).
    - rewrite <- Et. unfold rafter_line. now rewrite <- !app_assoc. }
  apply app_split in E as [(y & E1 & E2) | (y & E1 & E2)]; [|apply (Fin y); assumption].
  destruct y as [|y0 y]; [rewrite app_nil_r in E1; apply (Fin []); [now rewrite app_nil_r|symmetry; exact E2]|].
  destruct (rline_cut S m r xs rest p l (y0 :: y) Cl) as (l' & El' & Ep); [now exists []|now symmetry|discriminate|exact E2|exact El|].
  destruct (rs_line_part e C s a _ p rest k cb i _ M R) as (s1 & H1 & M1).
  { apply (plain_part _ l' r Gs) in Ep. now apply Forall_app in Ep. }
  { etransitivity; [|exact Lim]. rewrite status_line_body, <- Ep. unfold blen. rewrite !app_length. lia. }
  apply (routcome_stop _ _ _ _ _ _ _ _ H1). rewrite E2, El'. apply (ra_line _ _ _ m r xs (p ++ rest) l' t); assumption.
Qed.
End RFrom.
Lemma ridle_goes_all e xs : yes e -> ridle_goes e xs.
Proof.
  intro Y. induction xs as [|[m r] xs IH]; intros i C tr p s a rest k cb S Rm Cl Ap Q R Bg E Nr.
  - cbn in E. apply app_eq_nil in E as [_ E]. apply app_eq_nil in E as [E _]. contradiction.
  - destruct Bg as (l & El). destruct (ro_held _ _ _ _ Rm 0%nat (m, r) eq_refl) as (t & Ht & (Ha & _)). rewrite N.add_0_r in Ht.
    destruct (rs_start e i tr C s a rest k cb p t m Y Q Ht Ha R Nr) as (s1 & H1 & R1 & M1).
    apply (routcome_next _ _ _ _ _ _ _ _ H1). apply (rfrom_line e m r xs Y IH i C tr Rm S s1 a rest k cb p l t Cl Ap El Ht M1 R1).
    rewrite xtexts_cons, <- El, <- !app_assoc in E. apply app_inv_head in E. rewrite <- !app_assoc. exact E.
Qed.

(** * Calls *)
Lemma ropened_mile x rv buf hdr i t tr C c s : rmile x rv buf hdr i t tr C s -> rmile x rv buf hdr i t tr C (opened SResp c s) /\ d_left (s_resp (opened SResp c s)) = d_left (s_resp s) /\ d_chunk (s_resp (opened SResp c s)) = d_chunk (s_resp s).
Proof.
  intros [M1 M2 M3 M4 M5 M6 M7 M8 M9 M10 M11 M12]. unfold opened. destruct s as [rq rs oe cc ci ri pi txs cf si so trc lg inp]. cbn in *. unfold r_outside in *. cbn in *.
  split; [constructor; cbn; assumption|split; reflexivity].
Qed.
Lemma ropened_resting buf i tr C c s : rresting buf i tr C s -> rresting buf i tr C (opened SResp c s).
Proof.
  intros [M1 M2 M3 M4 M5 M6 M7 M8 M9 M10 M11]. unfold opened. destruct s as [rq rs oe cc ci ri pi txs cf si so trc lg inp]. cbn in *. unfold r_outside in *. cbn in *. constructor; cbn; assumption.
Qed.
Lemma ropened_rest c s : rest_of c c 0 0 (opened SResp c s).
Proof. split; [apply opened_same|split; [apply N.le_0_l|reflexivity]]. Qed.
Lemma rpaused_goes e i C tr xs c S s : yes e -> rroom e i C xs -> rclean_at xs S -> apart_at xs c S -> c <> [] -> rpaused i C tr xs (c ++ S) s -> routcome e i C tr xs S (opened SResp c s).
Proof.
  intros Y Rm Cl Ap Nc P. remember (c ++ S) as X eqn:EX. pose proof (ropened_rest c s) as R.
  destruct P as [xs s Q|m r xs p l t s El Ct M|m r xs ls1 ls2 p q t hs s El Eq Nq Hp Eh Rd Tp M|m r xs b1 b2 t es s Ec Nb Rd Be M L|m r xs cs la trl ds l t es s Ec Ep Nl Rd Be M|m r xs cs la trl ds ck l d1 d2 t es s Ec Ep Ed Nd Rd Be M L|m r xs cs la trl ds ck l x y t es s Ec Ep Nd Ex Ny Rd Be M|m r xs cs la trl ls1 ls2 p q t es hs s Ec El Eq Nq Hp Eh Rd Tp Be M|m r m' r' xs p l t es s El Np Rd Es M].
  - apply (ridle_goes_all e xs Y i C tr [] _ c c 0 0 S Rm Cl Ap (ropened_resting _ _ _ _ c _ Q) R); [apply rbegun_nil|symmetry; exact EX|exact Nc].
  - apply (rfrom_line e m r xs Y (ridle_goes_all e xs Y) i C tr Rm S _ c c 0 0 p l t Cl Ap El Ct (proj1 (ropened_mile _ _ _ _ _ _ _ _ c _ M)) R). now symmetry.
  - apply (rfrom_headers e m r xs Y (ridle_goes_all e xs Y) i C tr Rm S _ c c 0 t (Some p) q ls1 ls2 hs Cl Ap El Eq Nq Hp Eh Rd Tp (proj1 (ropened_mile _ _ _ _ _ _ _ _ c _ M)) R). now symmetry.
  - destruct (ropened_mile _ _ _ _ _ _ _ _ c _ M) as (M' & L' & _). rewrite L in L'.
    apply (rfrom_body e m r xs Y (ridle_goes_all e xs Y) i C tr Rm S _ c c 0 0 t b1 b2 es Cl Ap Ec Nb Rd Be M' L' R). now symmetry.
  - apply (rfrom_length e m r xs Y (ridle_goes_all e xs Y) i C tr Rm cs la trl Ec l S _ c c 0 0 t ds es Cl Ap Ep Nl Rd Be (proj1 (ropened_mile _ _ _ _ _ _ _ _ c _ M)) R). now symmetry.
  - destruct (ropened_mile _ _ _ _ _ _ _ _ c _ M) as (M' & _ & L'). rewrite L in L'.
    apply (rfrom_chunk e m r xs Y i C tr Rm cs la trl Ec l S _ c c 0 0 t ds ck d1 d2 es (rfrom_length e m r xs Y (ridle_goes_all e xs Y) i C tr Rm cs la trl Ec l) Cl Ap Ep Ed Nd Rd Be M' L' R). now symmetry.
  - apply (rfrom_crlf e m r xs Y i C tr Rm cs la trl Ec l S _ c c 0 0 t ds ck x y es (rfrom_length e m r xs Y (ridle_goes_all e xs Y) i C tr Rm cs la trl Ec l) Cl Ap Ep Nd Ex Ny Rd Be (proj1 (ropened_mile _ _ _ _ _ _ _ _ c _ M)) R). now symmetry.
  - apply (rfrom_trailer e m r xs Y (ridle_goes_all e xs Y) i C tr Rm cs la trl Ec S _ c c 0 t (Some p) q ls1 ls2 es hs Cl Ap El Eq Nq Hp Eh Rd Tp Be (proj1 (ropened_mile _ _ _ _ _ _ _ _ c _ M)) R). now symmetry.
  - apply (rfrom_final e m r ((m', r') :: xs) Y (ridle_goes_all e _ Y) i C tr Rm S p _ c c 0 0 t es Cl Ap Rd Es (proj1 (ropened_mile _ _ _ _ _ _ _ _ c _ M)) R); [now exists l| |right; split; [reflexivity|exact Nc]].
    rewrite <- EX, xtexts_cons, <- El. now rewrite <- !app_assoc.
Qed.
Lemma rlive_live x : rlive x -> live_status x. Proof. intros [-> | ->]; [now left|right; now left]. Qed.
Lemma rpaused_bufsum e i C tr xs S s : rroom e i C xs -> rpaused i C tr xs S s -> bufsum (s_resp s) <= c_field_limit (e_cfg e) /\ live_status (d_status (s_resp s)).
Proof.
  intros Rm P. assert (Z : forall x, In x xs -> blen (head_text (snd x)) <= c_field_limit (e_cfg e)) by (intros x I; pose proof (ro_limit _ _ _ _ Rm) as H; rewrite Forall_forall in H; now apply H).
  assert (Zt : forall x, In x xs -> blen (block_text (trailer_of (rp_content (snd x)))) + 2 <= c_field_limit (e_cfg e)) by (intros x I; pose proof (ro_limit _ _ _ _ Rm) as H; rewrite Forall_forall in H; now apply H).
  assert (Zl : forall m r p q, In (m, r) xs -> p ++ q = line_body r -> blen p <= c_field_limit (e_cfg e)).
  { intros m r p q I E. etransitivity; [|apply (Z (m, r) I)]. cbn [snd]. unfold head_text. rewrite status_line_body, <- E. unfold blen. rewrite !app_length. lia. }
  unfold bufsum. destruct P as [xs s Q|m r xs p l t s El Ct M|m r xs ls1 ls2 p q t hs s El Eq Nq Hp Eh Rd Tp M|m r xs b1 b2 t es s Ec Nb Rd Be M L|m r xs cs la trl ds l t es s Ec Ep Nl Rd Be M|m r xs cs la trl ds ck l d1 d2 t es s Ec Ep Ed Nd Rd Be M L|m r xs cs la trl ds ck l x y t es s Ec Ep Nd Ex Ny Rd Be M|m r xs cs la trl ls1 ls2 p q t es hs s Ec El Eq Nq Hp Eh Rd Tp Be M|m r m' r' xs p l t es s El Np Rd Es M].
  1: rewrite (rr_buf _ _ _ _ _ Q), (rr_header _ _ _ _ _ Q); split; [change (blen []) with 0; lia|exact (rlive_live _ (rr_live _ _ _ _ _ Q))].
  all: rewrite (ProofsRStream.rm_buf _ _ _ _ _ _ _ _ _ M), (ProofsRStream.rm_header _ _ _ _ _ _ _ _ _ M); (split; [|exact (rlive_live _ (ProofsRStream.rm_live _ _ _ _ _ _ _ _ _ M))]).
  all: try (change (blen []) with 0; lia).
  - rewrite N.add_0_r. apply (Zl m r p l); [now left|exact El].
  - change (blen []) with 0. rewrite N.add_0_l. etransitivity; [|apply (Z (m, r)); now left].
    cbn [snd]. unfold head_text. rewrite El. unfold block_text in *. rewrite !map_app, !concat_app, <- !app_assoc, <- Eq. unfold blen. rewrite !app_length. lia.
  - change (blen []) with 0. rewrite N.add_0_l. etransitivity; [|apply (Zt (m, r)); now left].
    cbn [snd]. rewrite Ec, El. cbn [trailer_of]. unfold block_text in *. rewrite map_app, concat_app. apply (f_equal (@length N)) in Eq. rewrite !app_length in Eq. cbn [length] in Eq. unfold blen. rewrite !app_length. lia.
  - rewrite N.add_0_r. apply (Zl m' r' p l); [right; now left|exact El].
Qed.
Lemma rruns_data_call e c s s' : c <> [] -> bufsum (s_resp s) <= c_field_limit (e_cfg e) -> live_status (d_status (s_resp s)) -> rruns e (opened SResp c s) s' ->
  data_call SResp (pd_slice c) e s = (ROk SsData, s').
Proof.
  intros Nc B L [n R]. assert (Lc : 0 < blen c) by (destruct c; [congruence|unfold blen; cbn; lia]).
  destruct (data_call_ok e SResp (pd_slice c) s) as (x & s2 & H & _); [split; [reflexivity|cbn; congruence]|exact B|intro Z; exfalso; exact (live_not_closed _ L Z)|].
  rewrite H. rewrite data_call_bytes in H by (assumption). apply loops_fuel in R.
  pose proof (data_loop_more SResp e n (opened SResp c s)) as D1. rewrite R in D1. specialize (D1 ltac:(discriminate) (loop_fuel SResp (opened SResp c s))).
  pose proof (data_loop_more SResp e (loop_fuel SResp (opened SResp c s)) (opened SResp c s)) as D2. rewrite H in D2. specialize (D2 ltac:(discriminate) n). rewrite Nat.add_comm in D2. congruence.
Qed.
Lemma rtold_app d i C tr a i1 C1 tr1 b i2 C2 tr2 : rtold d i C tr a i1 C1 tr1 -> rtold d i1 C1 tr1 b i2 C2 tr2 -> rtold d i C tr (a ++ b) i2 C2 tr2.
Proof. intro H. induction H; intro T; [exact T|]. cbn [app]. econstructor; [eassumption|eassumption|eassumption|now apply IHrtold]. Qed.
Lemma rtold_room d e i C tr a i' C' tr' xs : rtold d i C tr a i' C' tr' -> rroom e i C (a ++ xs) -> rroom e i' C' xs.
Proof. intro H. induction H; intro R; [exact R|]. apply IHrtold. eapply rroom_next. exact R. Qed.
Lemma rclean_drop d xs S : rclean_at (d ++ xs) S -> rclean_at xs S.
Proof. intros H b x a y ->. apply (H (d ++ b) x a y). now rewrite <- app_assoc. Qed.
Lemma apart_drop d xs c S : apart_at (d ++ xs) c S -> apart_at xs c S.
Proof. intros H b x a y tl ->. apply (H (d ++ b) x a y tl). now rewrite <- app_assoc. Qed.
Lemma rstream_calls e cs : yes e -> forall i C tr xs S s, rroom e i C xs -> ~ In [] cs -> (forall a b, cs = a ++ b -> a <> [] -> rclean_at xs (concat b ++ S)) ->
  (forall a c b, cs = a ++ c :: b -> apart_at xs c (concat b ++ S)) -> rpaused i C tr xs (concat cs ++ S) s ->
  exists s' done xs' i' C' tr', run_ops (map (fun c => OpResp (pd_slice c)) cs) e s = (ROk (map (fun _ => Some SsData) cs), s') /\ xs = done ++ xs' /\
    rtold (c_auto_destroy (e_cfg e)) i C tr done i' C' tr' /\ rpaused i' C' tr' xs' S s'.
Proof.
  intro Y. induction cs as [|c cs IH]; intros i C tr xs S s Rm Ne Cl Ap P.
  - exists s, [], xs, i, C, tr. split; [reflexivity|]. split; [reflexivity|]. split; [constructor|exact P].
  - cbn [concat] in P. rewrite <- app_assoc in P. assert (Nc : c <> []) by (intros ->; apply Ne; now left).
    destruct (rpaused_bufsum _ _ _ _ _ _ _ Rm P) as [B L].
    destruct (rpaused_goes e i C tr xs c (concat cs ++ S) s Y Rm (Cl [c] cs eq_refl ltac:(discriminate)) (Ap [] c cs eq_refl) Nc P) as (s1 & d1 & xs1 & i1 & C1 & tr1 & R1 & -> & T1 & P1).
    apply (rruns_data_call e c s s1 Nc B L) in R1.
    destruct (IH i1 C1 tr1 xs1 S s1) as (s2 & d2 & xs2 & i2 & C2 & tr2 & R2 & -> & T2 & P2); [eapply rtold_room; eassumption|intro Z; apply Ne; now right| | |exact P1|].
    + intros a b -> Na. apply (rclean_drop d1). apply (Cl (c :: a) b); [reflexivity|discriminate].
    + intros a x b ->. apply (apart_drop d1). apply (Ap (c :: a) x b). reflexivity.
    + exists s2, (d1 ++ d2), xs2, i2, C2, tr2. split; [|split; [now rewrite app_assoc|split; [eapply rtold_app; eassumption|exact P2]]].
      cbn [map run_ops]. unfold bind at 1. cbn [run_op]. unfold bind at 1. rewrite R1. unfold ret at 1. unfold bind at 1. rewrite R2. reflexivity.
Qed.
Lemma rtold_facts d i C tr xs i' C' tr' : rtold d i C tr xs i' C' tr' ->
  i' = i + N.of_nat (length xs) /\ (exists es, tr' = tr_of es tr /\ reply_events i (map snd xs) es) /\
  (forall k x, nth_error xs k = Some x -> if d then cx_table C' (i + N.of_nat k) = None else exists t, cx_table C' (i + N.of_nat k) = Some t /\ asked (fst x) t /\ answered (snd x) t) /\
  (forall j, j < i \/ i' <= j -> cx_table C' j = cx_table C j) /\ cx_rest C' = cx_rest C /\ cx_size C' = if d then (cx_size C - length xs)%nat else cx_size C.
Proof.
  intro H. induction H as [i C tr|i C tr m r t es xs i' C' tr' Ha Hb Me H (IH1 & (es' & IH2 & IH2') & IH3 & IH4 & IH5 & IH6)].
  - split; [cbn; lia|]. split; [exists []; split; [reflexivity|constructor]|]. split; [intros [|k]; discriminate|]. split; [reflexivity|]. split; [reflexivity|]. destruct d; cbn [length]; lia.
  - split; [cbn [length]; lia|]. split; [|split; [|split; [|split]]].
    + exists (es ++ es'). split; [now rewrite tr_of_app|cbn [map snd]; now constructor].
    + intros [|k] x Hk.
      * injection Hk as <-. rewrite N.add_0_r, IH4 by lia. cbn [cx_table rnext_ctx]. rewrite N.eqb_refl. destruct d; [reflexivity|]. exists t. split; [reflexivity|split; [exact Ha|exact Hb]].
      * specialize (IH3 k x Hk). replace (i + 1 + N.of_nat k) with (i + N.of_nat (S k)) in IH3 by lia. exact IH3.
    + intros j Hj. rewrite IH4 by lia. cbn [cx_table rnext_ctx]. destruct (j =? i) eqn:E; [lia|reflexivity].
    + now rewrite IH5.
    + rewrite IH6. cbn [cx_size rnext_ctx length]. destruct d; lia.
Qed.
Lemma xtexts_nil xs : xtexts xs = [] -> xs = [].
Proof. destruct xs as [|[m r] xs]; [reflexivity|]. rewrite xtexts_cons. discriminate. Qed.
Lemma rpaused_end i C tr xs s : rpaused i C tr xs [] s -> xs = [] /\ rresting [] i tr C s.
Proof.
  intro P. remember (@nil N) as R eqn:ER in P.
  destruct P as [xs s Q|m r xs p l t s El Ct M|m r xs ls1 ls2 p q t hs s El Eq Nq Hp Eh Rd Tp M|m r xs b1 b2 t es s Ec Nb Rd Be M L|m r xs cs la trl ds l t es s Ec Ep Nl Rd Be M|m r xs cs la trl ds ck l d1 d2 t es s Ec Ep Ed Nd Rd Be M L|m r xs cs la trl ds ck l x y t es s Ec Ep Nd Ex Ny Rd Be M|m r xs cs la trl ls1 ls2 p q t es hs s Ec El Eq Nq Hp Eh Rd Tp Be M|m r m' r' xs p l t es s El Np Rd Es M];
    try (apply app_eq_nil in ER as [ER _]; contradiction); try (apply app_eq_nil in ER as [ER _]; apply app_eq_nil in ER as [_ ER]; discriminate ER); [split; [now apply xtexts_nil|exact Q]|].
  exfalso. apply app_eq_nil in ER as [_ ER]. apply app_eq_nil in ER as [_ ER]. discriminate ER.
Qed.

(** * Rounds *)
Definition keys_apart (e : env) (s s' : st) : Prop := NoDup (map fst (s_txs s)) -> NoDup (map fst (s_txs s')).
Lemma keys_apart_kept : kept_by keys_apart.
Proof.
  assert (Rf : forall e s, keys_apart e s s) by (intros e s H; exact H).
  by_parts Rf; unfold keys_apart.
  - auto.
  - auto.
  - intros sd e s. unfold cur_tx. destruct (tx_get _ _) eqn:E; [auto|]. destruct (_ <=? _); [auto|]. cbn [snd s_txs set_s_txs]. now apply keys_put.
  - intros i t e s. cbn. now rewrite keys_set.
  - intros i e s. unfold check_free. cbn [snd]. destruct (c_auto_destroy _); [|auto]. destruct (tx_get _ _) as [t|]; [|auto]. destruct (is_complete t); [|auto]. cbn [s_txs set_s_txs]. apply keys_del.
  - intros e s. cbn. auto.
  - intros e s. cbn. auto.
Qed.
Lemma keys_run l e s : keys_apart e s (snd (run_ops l e s)).
Proof. apply (kept_run_ops keys_apart keys_apart_kept); [intros sd n e' s' H; destruct sd; exact H|intros i e' s' H; cbn; now apply keys_del]. Qed.
Lemma run_ops_app a b e : forall s x s1 y s2, run_ops a e s = (ROk x, s1) -> run_ops b e s1 = (ROk y, s2) -> run_ops (a ++ b) e s = (ROk (x ++ y), s2).
Proof.
  induction a as [|o a IH]; intros s x s1 y s2 H1 H2; cbn [app run_ops] in *.
  - injection H1 as <- <-. exact H2.
  - unfold bind in *. destruct (run_op o e s) as [[u|u| |] s3]; try discriminate H1. destruct (run_ops a e s3) as [[v|v| |] s4] eqn:E; try discriminate H1.
    injection H1 as <- <-. rewrite (IH _ _ _ _ _ E H2). reflexivity.
Qed.
Lemma told_more {cfg} i C tr ms i' C' tr' : told cfg i C tr ms i' C' tr' -> (forall j, i' <= j -> cx_table C' j = cx_table C j) /\ cx_rest C' = cx_rest C /\ cx_size C' = (cx_size C + length ms)%nat.
Proof.
  intro H. induction H as [i C tr|i C tr m t es ms i' C' tr' Ho Me H (IH1 & IH2 & IH3)]; [repeat split; cbn [length]; lia|]. destruct (told_facts _ _ _ _ _ _ _ H) as (Ei & _). split; [|split].
  - intros j Hj. rewrite IH1 by exact Hj. cbn [cx_table next_ctx]. destruct (j =? i) eqn:E; [lia|reflexivity].
  - now rewrite IH2.
  - rewrite IH3. cbn [cx_size next_ctx length]. lia.
Qed.
(** Between rounds: [n] exchanges are over, [T] is the table of their transactions, and at most [z] are in it. *)
Record level (n : N) (tr : list (event * status)) (T : N -> option tx) (z : nat) (s : st) : Prop := {
  lv_req : resting [] n tr (mk_ctx T (n, s_resp s, false) z) s;
  lv_resp : d_state (s_resp s) = StIdle /\ (d_prev (s_resp s) = StIdle \/ d_prev (s_resp s) = StNone) /\ rlive (d_status (s_resp s)) /\
            d_recv (s_resp s) = None /\ d_buf (s_resp s) = [] /\ d_header (s_resp s) = None;
  lv_free : forall j, n < j -> T j = None; lv_keys : NoDup (map fst (s_txs s)) }.
Definition line_limits (e : env) (x : message * response) : Prop :=
  blen (request_text (m_req (fst x))) <= c_field_limit (e_cfg e) /\ blen (block_text (trailer_of (m_content (fst x)))) + 2 <= c_field_limit (e_cfg e) /\
  blen (head_text (snd x)) <= c_field_limit (e_cfg e) /\ blen (block_text (trailer_of (rp_content (snd x)))) + 2 <= c_field_limit (e_cfg e).
Definition over (d : bool) (T : N -> option tx) (i : N) (x : message * response) : Prop :=
  if d then T i = None else exists t, T i = Some t /\ asked (fst x) t /\ answered (snd x) t.
Lemma round_runs e n tr T z s rd : yes e -> level n tr T z s -> good_round rd -> Forall (line_limits e) (rd_exchanges rd) -> n + N.of_nat (length (rd_exchanges rd)) < 2 ^ 64 ->
  N.of_nat z + N.of_nat (length (rd_exchanges rd)) <= c_max_tx (e_cfg e) ->
  exists s' T' es1 es2, run_ops (round_ops rd) e s = (ROk (map (fun _ => Some SsData) (round_ops rd)), s') /\
    stream_events (e_cfg e) n (rd_asked rd) es1 /\ reply_events n (rd_answers rd) es2 /\
    level (n + N.of_nat (length (rd_exchanges rd))) (tr_of (es1 ++ es2) tr) T' (if c_auto_destroy (e_cfg e) then z else (z + length (rd_exchanges rd))%nat) s' /\
    (forall j, j < n -> T' j = T j) /\ (forall k x, nth_error (rd_exchanges rd) k = Some x -> over (c_auto_destroy (e_cfg e)) T' (n + N.of_nat k) x).
Proof.
  intros Y [Lq (P1 & P2 & P3 & P4 & P5 & P6) Lf Lk] (G & Eu & Nu & Cu & Ed & Nd & Cd & Ad) Lim Ix Sz. set (xs := rd_exchanges rd) in *. set (d := c_auto_destroy (e_cfg e)).
  assert (Ln : length (rd_asked rd) = length xs) by apply map_length.
  assert (R1 : room e n (mk_ctx T (n, s_resp s, false) z) (rd_asked rd)).
  { constructor; cbn [cx_rest cx_size cx_table fst snd]; rewrite ?Ln; try assumption.
    - apply Forall_forall. intros m I. apply in_map_iff in I as (x & <- & I). rewrite Forall_forall in G. now apply G.
    - apply Forall_forall. intros m I. apply in_map_iff in I as (x & <- & I). rewrite Forall_forall in Lim. destruct (Lim x I) as (L1 & L2 & _). now split.
    - intro Z. rewrite Z in P3. destruct P3; discriminate. }
  pose proof (@pa_idle (e_cfg e) n _ tr (rd_asked rd) s Lq) as P. rewrite <- Eu, <- (app_nil_r (concat _)) in P.
  destruct (stream_calls e (rd_up rd) Y n _ tr (rd_asked rd) [] s R1 Nu) as (s1 & done & ms' & i1 & C1 & tr1 & H1 & E1 & T1 & Q1); [|exact P|].
  { intros a b Eab _ before m after y Em. exact (Cu a b before m after y Eab Em). }
  apply paused_end in Q1 as [-> Q1]. rewrite app_nil_r in E1. subst done. destruct (told_facts _ _ _ _ _ _ _ T1) as (Ei & (es1 & -> & Se) & Tx & Ti). destruct (told_more _ _ _ _ _ _ _ T1) as (Tm & Tr & Ts). cbn [cx_rest cx_size cx_table] in *. rewrite Ln in *. clear P R1.
  pose proof (keys_run (map (fun c => OpReq (pd_slice c)) (rd_up rd)) e s Lk) as K1. rewrite H1 in K1. cbn [snd] in K1. subst i1.
  destruct Q1 as [D1 D2 D3 D4 D5 D6 D7 D8 D9 D10 D11]. rewrite Tr in D10. unfold outside in D10. injection D10 as O1 O2 O3.
  set (C2 := mk_ctx (fun j => tx_get j (s_txs s1)) (n + N.of_nat (length xs), s_req s1, false) (length (s_txs s1))).
  assert (Qr : rresting [] n (tr_of es1 tr) C2 s1) by (constructor; rewrite ?O2; try assumption; [left; split; [reflexivity|split; [exact K1|apply Nat.le_refl]]|unfold r_outside, C2; cbn [cx_rest]; congruence|reflexivity]).
  assert (R2 : rroom e n C2 xs).
  { constructor; [exact G| |exact Ix|reflexivity|].
    - apply Forall_forall. intros x I. rewrite Forall_forall in Lim. destruct (Lim x I) as (_ & _ & L). exact L.
    - intros k x Hk. destruct (Tx k (fst x)) as (t & Ht & Ho); [unfold rd_asked; now apply map_nth_error|]. exists t. split; [|exact (holds_awaits _ _ Ho)]. unfold C2. cbn [cx_table]. rewrite D11; [exact Ht|].
      assert (k < length xs)%nat by (apply nth_error_Some; congruence). lia. }
  pose proof (ra_idle n C2 (tr_of es1 tr) xs s1 Qr) as P. replace (xtexts xs) with (concat (rd_down rd) ++ []) in P by (rewrite app_nil_r, Ed; reflexivity).
  destruct (rstream_calls e (rd_down rd) Y n C2 (tr_of es1 tr) xs [] s1 R2 Nd) as (s2 & done & xs' & i2 & C3 & tr2 & H2 & E2 & T2 & Q2); [| |exact P|].
  { intros a b Eab _ before x after y Em Hy. rewrite Em in *. apply (Cd a b (map snd before) (snd x) (map snd after) y Eab); [|exact Hy]. unfold rd_answers. fold xs. rewrite Em. now rewrite map_app. }
  { intros a c b Eab before x after y tl Em Hb -> Ny Et. apply (Ad a y tl b (map snd before) (snd x) (map snd after) Eab Ny); [|exact Hb|exact Et]. unfold rd_answers. fold xs. rewrite Em. now rewrite map_app. }
  apply rpaused_end in Q2 as [-> Q2]. rewrite app_nil_r in E2. subst done. destruct (rtold_facts _ _ _ _ _ _ _ _ T2) as (Ei & (es2 & -> & Re) & Ux & Ui & Ur & Us). subst i2. unfold C2 in Ux, Ui, Ur, Us. cbn [cx_rest cx_size cx_table] in Ux, Ui, Ur, Us. fold d in Ux, Us. clear P R2 Qr.
  pose proof (keys_run (map (fun c => OpResp (pd_slice c)) (rd_down rd)) e s1 K1) as K2. rewrite H2 in K2. cbn [snd] in K2.
  destruct Q2 as [F1 F2 F3 F4 F5 F6 F7 F8 F9 F10 F11]. rewrite Ur in F10. unfold r_outside in F10. injection F10 as V1 V2 V3.
  exists s2, (cx_table C3), es1, es2. split; [|split; [exact Se|split; [exact Re|split; [|split]]]].
  - unfold round_ops. rewrite (run_ops_app _ _ _ _ _ _ _ _ H1 H2), map_app, !map_map. reflexivity.
  - constructor; [|repeat split; assumption| |exact K2].
    + constructor; rewrite ?V2; try assumption.
      * cbn [cx_size]. rewrite Ui in F8 by lia. assert (W : (length (s_txs s1) <= (if tx_get (n + N.of_nat (length xs)) (s_txs s1) then 1 else 0) + (z + length xs))%nat) by (destruct D8 as [[D8 D8'] | [D8 D8']]; rewrite D8; lia).
        destruct F8 as [(F8 & _ & F8') | (F8 & F8' & _ & F8'')].
        { rewrite F8. destruct D8 as [[D8 _] | [D8 _]]; rewrite D8 in *; [left|right]; (split; [reflexivity|]); destruct d; lia. }
        { rewrite F8 in W. left. split; [exact F8'|]. destruct d; lia. }
      * rewrite tr_of_app. exact F9.
      * unfold outside. cbn [cx_rest]. congruence.
    + intros j Hj. rewrite Ui by lia. rewrite D11 by lia. rewrite Tm by lia. apply Lf. lia.
  - intros j Hj. rewrite Ui by lia. rewrite D11 by lia. now apply Ti.
  - intros k x Hk. exact (Ux k x Hk).
Qed.
Lemma talk_runs_size e rds : yes e -> forall n tr T z s, level n tr T z s -> Forall good_round rds -> Forall (line_limits e) (exchanges rds) -> n + N.of_nat (length (exchanges rds)) < 2 ^ 64 ->
  (if c_auto_destroy (e_cfg e) then Forall (fun r => N.of_nat z + N.of_nat (length (rd_exchanges r)) <= c_max_tx (e_cfg e)) rds else N.of_nat z + N.of_nat (length (exchanges rds)) <= c_max_tx (e_cfg e)) ->
  exists s' T' z' es, run_ops (concat (map round_ops rds)) e s = (ROk (map (fun _ => Some SsData) (concat (map round_ops rds))), s') /\
    conversation_events (e_cfg e) n rds es /\ level (n + N.of_nat (length (exchanges rds))) (tr_of es tr) T' z' s' /\
    (forall j, j < n -> T' j = T j) /\ (forall k x, nth_error (exchanges rds) k = Some x -> over (c_auto_destroy (e_cfg e)) T' (n + N.of_nat k) x) /\
    z' = (if c_auto_destroy (e_cfg e) then z else z + length (exchanges rds))%nat.
Proof.
  intro Y. induction rds as [|rd rds IH]; intros n tr T z s L G Lim Ix Sz.
  - exists s, T, z, []. split; [reflexivity|]. split; [constructor|]. split; [cbn; rewrite N.add_0_r; exact L|]. split; [reflexivity|]. split; [intros [|k]; discriminate|]. cbn. destruct (c_auto_destroy _); lia.
  - inversion_clear G as [|? ? G1 G2]. unfold exchanges in Lim, Ix, Sz |- *. cbn [map concat] in *. rewrite app_length in *. fold (exchanges rds) in *. apply Forall_app in Lim as [Lim1 Lim2].
    destruct (round_runs e n tr T z s rd Y L G1 Lim1) as (s1 & T1 & es1 & es2 & H1 & S1 & R1 & L1 & O1 & X1); [lia|destruct (c_auto_destroy _); [now inversion_clear Sz|lia]|].
    destruct (IH _ _ _ _ _ L1 G2 Lim2) as (s2 & T2 & z2 & es3 & H2 & S2 & L2 & O2 & X2 & Z2); [lia|destruct (c_auto_destroy _); [now inversion_clear Sz|lia]|].
    exists s2, T2, z2, (es1 ++ es2 ++ es3). split; [|split; [|split; [|split; [|split]]]].
    + rewrite (run_ops_app _ _ _ _ _ _ _ _ H1 H2), map_app. reflexivity.
    + now apply cv_cons.
    + rewrite app_assoc, tr_of_app. replace (n + N.of_nat (length (rd_exchanges rd) + length (exchanges rds))) with (n + N.of_nat (length (rd_exchanges rd)) + N.of_nat (length (exchanges rds))) by lia. exact L2.
    + intros j Hj. rewrite O2 by lia. now apply O1.
    + intros k x Hk. destruct (Nat.lt_ge_cases k (length (rd_exchanges rd))) as [Lk | Lk].
      * rewrite nth_error_app1 in Hk by exact Lk. specialize (X1 k x Hk). unfold over in *. rewrite O2 by lia. exact X1.
      * rewrite nth_error_app2 in Hk by exact Lk. specialize (X2 _ x Hk). replace (n + N.of_nat (length (rd_exchanges rd)) + N.of_nat (k - length (rd_exchanges rd))) with (n + N.of_nat k) in X2 by lia. exact X2.
    + rewrite Z2. destruct (c_auto_destroy _); lia.
Qed.
Lemma talk_runs e rds : yes e -> forall n tr T z s, level n tr T z s -> Forall good_round rds -> Forall (line_limits e) (exchanges rds) -> n + N.of_nat (length (exchanges rds)) < 2 ^ 64 ->
  (if c_auto_destroy (e_cfg e) then Forall (fun r => N.of_nat z + N.of_nat (length (rd_exchanges r)) <= c_max_tx (e_cfg e)) rds else N.of_nat z + N.of_nat (length (exchanges rds)) <= c_max_tx (e_cfg e)) ->
  exists s' T' z' es, run_ops (concat (map round_ops rds)) e s = (ROk (map (fun _ => Some SsData) (concat (map round_ops rds))), s') /\
    conversation_events (e_cfg e) n rds es /\ level (n + N.of_nat (length (exchanges rds))) (tr_of es tr) T' z' s' /\
    (forall j, j < n -> T' j = T j) /\ (forall k x, nth_error (exchanges rds) k = Some x -> over (c_auto_destroy (e_cfg e)) T' (n + N.of_nat k) x).
Proof.
  intros Y n tr T z s L G Lim Ix Sz. destruct (talk_runs_size e rds Y n tr T z s L G Lim Ix Sz) as (s' & T' & z' & es & H1 & H2 & H3 & H4 & H5 & _). exists s', T', z', es. auto.
Qed.
Lemma open_level e : exists s, run_op OpOpen e st_new = (ROk None, s) /\ level 0 [] (fun _ => None) 0 s.
Proof.
  destruct (open_eval e) as (s & H & Q). exists s. split; [exact H|]. injection H as <-. constructor; [exact Q|repeat split; [now right|now right]|reflexivity|constructor].
Qed.
Lemma talk_parsed_yes e rds : yes e -> Forall good_round rds -> talk_fits e rds ->
  exists s, history e (conversation rds) = (ROk (all_calls rds), s) /\ conversation_events (e_cfg e) 0 rds (events s) /\
    (forall k x, nth_error (exchanges rds) k = Some x -> over (c_auto_destroy (e_cfg e)) (fun i => tx_get i (s_txs s)) (N.of_nat k) x).
Proof.
  intros Y G (F1 & F2 & F3). destruct (open_level e) as (s0 & H0 & L0).
  destruct (talk_runs e rds Y 0 [] _ 0%nat s0 L0 G F1 F2 F3) as (s & T & z & es & H & Ce & [Lq _ _ _] & _ & X).
  exists s. split; [unfold history, conversation; cbn [run_ops]; unfold bind at 1; rewrite H0; unfold bind at 1; rewrite H; reflexivity|].
  split; [rewrite (events_tr_of es s (rs_trace _ _ _ _ _ Lq)); exact Ce|].
  intros k x Hk. specialize (X k x Hk). rewrite N.add_0_l in X. unfold over in *.
  rewrite (rs_others _ _ _ _ _ Lq); [exact X|]. assert (k < length (exchanges rds))%nat by (apply nth_error_Some; congruence). lia.
Qed.
Lemma conversation_events_mute e i rds es : conversation_events (e_cfg (mute e)) i rds es -> conversation_events (e_cfg e) i rds es.
Proof. intro H. induction H as [i|i r rs es1 es2 es3 H1 H2 _ IH]; [constructor|]. constructor; [now apply stream_events_mute|exact H2|exact IH]. Qed.
Lemma talk_parsed e rds : accepting e -> Forall good_round rds -> talk_fits e rds ->
  exists s, history e (conversation rds) = (ROk (all_calls rds), s) /\ conversation_events (e_cfg e) 0 rds (events s) /\
    (forall k m r, nth_error (exchanges rds) k = Some (m, r) ->
      if c_auto_destroy (e_cfg e) then tx_get (N.of_nat k) (s_txs s) = None else exists t, tx_get (N.of_nat k) (s_txs s) = Some t /\ asked m t /\ answered r t).
Proof.
  intros A G F. destruct (talk_parsed_yes (mute e) rds (yes_mute e) G F) as (s & H & Se & Tx).
  destruct (history_mute e (conversation rds) A) as [H1 H2]. rewrite H in H1, H2. cbn [fst snd] in H1, H2. apply similar_txs in H2 as [H2 H3].
  exists (snd (history e (conversation rds))). split; [rewrite <- H1; apply surjective_pairing|]. rewrite H3, H2. split; [now apply conversation_events_mute|].
  intros k m r Hk. exact (Tx k (m, r) Hk).
Qed.
