(** Proofs about what decompressors deliver (ModelDecomp.v): contracts of writers and chains. *)
From Verif Require Import Base ModelUtil ModelState ModelTx ModelDecomp SpecDecomp ProofsDecomp.
From Coq Require Import Lia.

Lemma blen_pos {A} (l : list A) : l <> [] -> 0 < N.of_nat (length l).
Proof. destruct l; [congruence|cbn; lia]. Qed.
Lemma firstn_all_blen (d : bytes) : firstn (N.to_nat (blen d)) d = d.
Proof. unfold blen. rewrite Nnat.Nat2N.id. apply firstn_all. Qed.
Lemma firstn_skipn_N n (d : bytes) : firstn (N.to_nat n) d ++ skipn (N.to_nat n) d = d.
Proof. apply firstn_skipn. Qed.
Lemma app_prefix_len (y o z : bytes) : (y ++ o) ++ z = y -> o = [] /\ z = [].
Proof. intros E. apply (f_equal (@length N)) in E. rewrite !app_length in E. destruct o, z; cbn in E; try lia; auto. Qed.

Section Contracts.
Variable r : raw.
Variable lz : bool.

(** The functions, one step. *)
Lemma c_write_S f c data : c_write r lz (S f) c data =
      match c with
      | Sink _ => DmCall (Some data) (fun ok => DmRet (if ok then IoOk (blen data) else IoErr IoOther, Sink r))
      | Layer _ l inner =>
          if l_pass r l then
            match inner with
            | Some i => dbind (c_write r lz f i data) (fun '(x, i) => DmRet (x, Layer r l (Some i)))
            | None => DmRet (IoOk (blen data), c)
            end
          else
            match l_writer r l with
            | None => DmRet (IoErr IoWriteZero, c)
            | Some w =>
                let l := with_writer r None l in
                match wr_write r w data with
                | (IoOk n, w) => DmRet (IoOk (if n =? 0 then blen data else n), Layer r (with_writer r (Some w) l) inner)
                | (IoErr IoWriteZero, w) =>
                    dbind (match inner with Some i => flush_writer r lz f l i w | None => DmRet (IoErr IoOther, l, None) end)
                      (fun '(x, l, inner) =>
                         match x with
                         | IoOk w => c_write r lz f (Layer r (with_writer r (Some w) l) inner) data
                         | IoErr e => DmRet (IoErr e, Layer r l inner)
                         end)
                | (IoErr IoOther, _) =>
                    match restart r lz l with
                    | Some l => c_write r lz f (Layer r l inner) data
                    | None =>
                        let l := with_pass r true l in
                        match inner with
                        | Some i =>
                            dbind (c_write r lz f (set_passthrough r true i) data) (fun '(x, i) =>
                              DmRet (x, match x with
                                        | IoOk _ => Layer r l (Some i)
                                        | IoErr _ => Layer r (with_pass r false l) (Some (set_passthrough r false i))
                                        end))
                        | None => DmRet (IoOk (blen data), Layer r l None)
                        end
                    end
                end
            end
      end.
Proof using Type. reflexivity. Qed.
Lemma write_all_S f c data : write_all r lz (S f) c data =
      if is_nil data then DmRet (IoOk tt, c)
      else
        dbind (c_write r lz f c data) (fun '(x, c) =>
          match x with
          | IoOk n => if n =? 0 then DmRet (IoErr IoWriteZero, c) else write_all r lz f c (skipn (N.to_nat n) data)
          | IoErr e => DmRet (IoErr e, c)
          end).
Proof using Type. reflexivity. Qed.
Lemma flush_writer_S f l i w : flush_writer r lz (S f) l i w =
      let '(fl, w) := wr_flush r w in
      dbind (match wr_buf r w with
             | Some b => dbind (write_all r lz f i b) (fun '(x, i) => DmRet (x, i, wr_clear r w))
             | None => DmRet (IoOk tt, i, w)
             end)
        (fun '(x, i, w) =>
           match x with
           | IoErr e => DmRet (IoErr e, l, None)
           | IoOk _ =>
               match fl with
               | IoOk _ => DmRet (IoOk w, l, Some i)
               | IoErr IoWriteZero => flush_writer r lz f l i w
               | IoErr IoOther => match restart r lz l with
                                  | Some l => DmRet (IoOk w, l, Some i)
                                  | None => DmRet (IoErr IoOther, l, None)
                                  end
               end
           end).
Proof using Type. reflexivity. Qed.
Lemma c_flush_S f c : c_flush r lz (S f) c =
      match c with
      | Sink _ => DmRet (IoOk tt, Sink r)
      | Layer _ l inner =>
          dbind (match l_writer r l with
                 | Some w => dbind (flush_inner r lz f (with_writer r None l) inner w) (fun '(x, l, inner) =>
                               match x with
                               | IoOk w => DmRet (IoOk tt, with_writer r (Some w) l, inner)
                               | IoErr e => DmRet (IoErr e, l, inner)
                               end)
                 | None => DmRet (IoOk tt, l, inner)
                 end)
            (fun '(x, l, inner) =>
               match x, inner with
               | IoOk _, Some i => dbind (c_flush r lz f i) (fun '(x, i) => DmRet (x, Layer r l (Some i)))
               | _, _ => DmRet (x, Layer r l inner)
               end)
      end.
Proof using Type. reflexivity. Qed.
Lemma c_finish_S f c : c_finish r lz (S f) c =
      match c with
      | Sink _ => DmCall None (fun ok => DmRet (if ok then IoOk tt else IoErr IoOther))
      | Layer _ l inner =>
          match l_writer r l with
          | Some w =>
              dbind (flush_inner r lz f (with_writer r None l) inner w) (fun '(x, l, inner) =>
                match x with
                | IoErr e => DmRet (IoErr e)
                | IoOk w =>
                    match wr_finish r w with
                    | IoErr e => DmRet (IoErr e)
                    | IoOk b => match inner with
                                | Some i => dbind (write_all r lz f i b) (fun '(x, i) =>
                                              match x with IoOk _ => c_finish r lz f i | IoErr e => DmRet (IoErr e) end)
                                | None => DmRet (IoOk tt)
                                end
                    end
                end)
          | None => match inner with Some i => c_finish r lz f i | None => DmRet (IoOk tt) end
          end
      end.
Proof using Type. reflexivity. Qed.
(** The contract of a writer: [W w X y b]: it was given [X], it has put [y] into its buffer in all, of which [b] is still there.
    [K]: the places where the input may be cut. *)
Record wdec (W : writer r -> bytes -> bytes -> bytes -> Prop) (D : bytes -> bytes) (V E K : bytes -> Prop) : Prop := {
  wd_start : D [] = [] /\ V [];
  wd_mono : forall x z, exists w, D (x ++ z) = D x ++ w;
  wd_valid : forall x z, V (x ++ z) -> V x;
  wd_prefix : forall w X y b, W w X y b -> exists z, D X = y ++ z;
  wd_write : forall w X y b d, W w X y b -> d <> [] -> V (X ++ d) -> K (X ++ d) ->
    match wr_write r w d with
    | (IoOk n, w') => n <= blen d /\ exists o, W w' (X ++ firstn (N.to_nat (if n =? 0 then blen d else n)) d) (y ++ o) (b ++ o)
    | (IoErr IoWriteZero, w') => exists o, W w' X (y ++ o) (b ++ o) /\ b ++ o <> []
    | (IoErr IoOther, _) => False
    end;
  wd_flush : forall w X y b, W w X y b -> V X ->
    match wr_flush r w with
    | (IoOk _, w') => exists o, W w' X (y ++ o) (b ++ o) /\ y ++ o = D X
    | (IoErr IoWriteZero, w') => exists o, W w' X (y ++ o) (b ++ o) /\ b ++ o <> []
    | (IoErr IoOther, _) => False
    end;
  wd_buf : forall w X y b, W w X y b -> wr_buf r w = Some b;
  wd_clear : forall w X y b, W w X y b -> W (wr_clear r w) X y [];
  wd_finish : forall w X, W w X (D X) [] -> E X -> wr_finish r w = IoOk [] }.

(** A flush changes nothing. *)
Definition dry_writer (w : writer r) : Prop :=
  exists Q : writer r -> Prop, Q w /\ forall w, Q w -> exists w', wr_flush r w = (IoOk tt, w') /\ wr_buf r w' = Some [] /\ Q (wr_clear r w').
Inductive dry : chain r -> Prop :=
| dry_sink : dry (Sink r)
| dry_layer l i : dry i -> (forall w, l_writer r l = Some w -> dry_writer w) -> dry (Layer r l (Some i)).
Fixpoint all_pass (c : chain r) : Prop := match c with Sink _ => True | Layer _ l i => l_pass r l = true /\ match i with Some c => all_pass c | None => False end end.
Fixpoint depth (c : chain r) : nat := match c with Sink _ => 0 | Layer _ _ i => S match i with Some c => depth c | None => 0 end end.
Lemma wdec_dry W D V E K w X : wdec W D V E K -> V X -> W w X (D X) [] -> dry_writer w.
Proof using Type.
  intros H HV Hw. exists (fun w => W w X (D X) []). split; [exact Hw|]. clear w Hw. intros w Hw. pose proof (wd_flush _ _ _ _ _ H w X _ _ Hw HV) as G.
  destruct (wr_flush r w) as [[[]|[|]] w'].
  - destruct G as (o & Ho & E2). rewrite <- (app_nil_r (D X)) in E2 at 2. apply app_inv_head in E2. subst o. rewrite !app_nil_r in Ho. exists w'. split; [reflexivity|]. split; [eapply (wd_buf _ _ _ _ _ H), Ho|].
    eapply (wd_clear _ _ _ _ _ H), Ho.
  - destruct G as (o & Ho & Ne). destruct (wd_prefix _ _ _ _ _ H _ _ _ _ Ho) as [z Hz]. symmetry in Hz. apply app_prefix_len in Hz. destruct Hz as [-> _]. now destruct Ne.
  - contradiction.
Qed.
Lemma dry_pass p c : dry c -> dry (set_passthrough r p c).
Proof using Type. induction 1; cbn [set_passthrough]; constructor; auto. Qed.
Lemma pass_depth p c : depth (set_passthrough r p c) = depth c.
Proof using Type. revert c. fix IH 1. intros [|l [i|]]; cbn [set_passthrough depth]; [reflexivity| |reflexivity]. now rewrite IH. Qed.
Lemma dry_all_pass c : dry c -> all_pass (set_passthrough r true c).
Proof using Type. induction 1; cbn; auto. Qed.
Lemma pass_write c d : forall f, all_pass c -> (S (depth c) <= f)%nat ->
  result (c_write r lz f c d) = Some (IoOk (blen d), c) /\ calls (c_write r lz f c d) = [Some d].
Proof using Type.
  revert c. fix IH 1. intros [|l [i|]] [|f] Hp Hf; cbn [depth all_pass] in *; try lia; rewrite c_write_S.
  - cbn. auto.
  - destruct Hp as [-> Hp]. rewrite !calls_bind, !result_bind. destruct (IH i f Hp ltac:(lia)) as [-> ->]. cbn. auto.
Qed.
Lemma dry_flush c : dry c -> exists c', dry c' /\ depth c' = depth c /\ (all_pass c -> all_pass c') /\
  forall f, (depth c + 2 <= f)%nat -> result (c_flush r lz f c) = Some (IoOk tt, c') /\ calls (c_flush r lz f c) = [].
Proof using Type.
  induction 1 as [|l i Hi (i' & D1 & D2 & D3 & D4) Hl].
  - exists (Sink r). split; [constructor|]. split; [reflexivity|]. split; [auto|]. intros [|f] Hf; [lia|]. now cbn.
  - destruct (l_writer r l) as [w|] eqn:El.
    + destruct (Hl w eq_refl) as (Q & Hw & HQ). destruct (HQ w Hw) as (w' & E1 & E2 & H2). set (l' := with_writer r (Some (wr_clear r w')) (with_writer r None l)).
      exists (Layer r l' (Some i')). split; [constructor; [exact D1|]; intros w0 [= <-]; now exists Q|]. split; [cbn; now rewrite D2|]. split; [cbn; intros [H3 H4]; auto|].
      intros [|[|[|f]]] Hf; cbn [depth] in Hf; try lia. destruct (D4 (S (S f)) ltac:(lia)) as [R J]. rewrite c_flush_S. rewrite El. unfold flush_inner. rewrite flush_writer_S, E1, E2, write_all_S. cbn [is_nil dbind].
      rewrite calls_bind, result_bind, R, J. cbn. auto.
    + exists (Layer r l (Some i')). split; [constructor; [exact D1|]; intros w0 E; rewrite El in E; discriminate|]. split; [cbn; now rewrite D2|]. split; [cbn; intros [H3 H4]; auto|].
      intros [|f] Hf; cbn [depth] in Hf; [lia|]. destruct (D4 f ltac:(lia)) as [R J]. rewrite c_flush_S. rewrite El. cbn [dbind]. rewrite calls_bind, result_bind, R, J. cbn. auto.
Qed.
Lemma pass_decompress c d : dry c -> all_pass c -> exists c', dry c' /\ all_pass c' /\ depth c' = depth c /\ forall f, (depth c + 4 <= f)%nat ->
  result (decompress r lz f c d) = Some (IoOk tt, c') /\ calls (decompress r lz f c d) = match d with [] => [] | _ => [Some d] end.
Proof using Type.
  intros Hd Hp. destruct (dry_flush c Hd) as (c' & D1 & D2 & D3 & D4). exists c'. split; [exact D1|]. split; [auto|]. split; [exact D2|]. intros f Hf. destruct (D4 f ltac:(lia)) as [R J].
  unfold decompress. rewrite calls_bind, result_bind. destruct f as [|[|f]]; try lia. rewrite write_all_S. destruct d as [|a d]; [cbn [is_nil calls result]; now rewrite R, J|]. set (dd := a :: d).
  cbn [is_nil dd]. fold dd. rewrite !calls_bind, !result_bind. destruct (pass_write c dd (S f) Hp ltac:(lia)) as [-> ->]. assert (blen dd =? 0 = false) as -> by (apply N.eqb_neq; cbn; lia).
  rewrite write_all_S. assert (skipn (N.to_nat (blen dd)) dd = []) as -> by (apply skipn_all2; unfold blen; lia). cbn [is_nil calls result]. rewrite R, J. auto.
Qed.
Lemma pass_delivered ds f : ~ In [] ds -> forall c, dry c -> all_pass c -> (depth c + 4 <= f)%nat -> delivered r lz f c ds = Some (map Some ds).
Proof using Type.
  intros Nd. induction ds as [|d ds IH]; intros c Hd Hp Hf; [reflexivity|]. destruct (pass_decompress c d Hd Hp) as (c' & D1 & D2 & D3 & D4). destruct (D4 f Hf) as [R J].
  cbn [delivered map]. rewrite R, J, (IH (fun H => Nd (or_intror H)) c' D1 D2) by lia. destruct d; [destruct Nd; now left|reflexivity].
Qed.

(** The contract of a chain: [C c X Y]: it was given [X] and the callbacks got [Y]. *)
Record cdec (C : chain r -> bytes -> bytes -> Prop) (D : bytes -> bytes) (V E K : bytes -> Prop) : Prop := {
  cd_mono : forall x z, exists w, D (x ++ z) = D x ++ w;
  cd_valid : forall x z, V (x ++ z) -> V x;
  cd_prefix : forall c X Y, C c X Y -> exists z, D X = Y ++ z;
  cd_write : forall c X Y d, C c X Y -> d <> [] -> V (X ++ d) -> K (X ++ d) ->
    exists f0 n o c', 0 < n <= blen d /\ C c' (X ++ firstn (N.to_nat n) d) (Y ++ o) /\
      forall f, (f0 <= f)%nat -> result (c_write r lz f c d) = Some (IoOk n, c') /\ joined (calls (c_write r lz f c d)) = o;
  cd_flush : forall c X Y, C c X Y -> V X ->
    exists f0 o c', C c' X (Y ++ o) /\ Y ++ o = D X /\ dry c' /\
      forall f, (f0 <= f)%nat -> result (c_flush r lz f c) = Some (IoOk tt, c') /\ joined (calls (c_flush r lz f c)) = o;
  cd_finish : forall c X Y, C c X Y -> V X -> E X ->
    exists f0 o, Y ++ o = D X /\
      forall f, (f0 <= f)%nat -> result (c_finish r lz f c) = Some (IoOk tt) /\ exists l, calls (c_finish r lz f c) = l ++ [None] /\ ~ In None l /\ joined l = o }.

(** ** The end of a chain *)
Lemma sink_dec : cdec (fun c X Y => c = Sink r /\ X = Y) (fun x => x) (fun _ => True) (fun _ => True) (fun _ => True).
Proof using Type.
  split.
  - intros x z. now exists z.
  - auto.
  - intros c X Y (_ & ->). exists []. now rewrite app_nil_r.
  - intros c X Y d (-> & ->) Nd _ _. exists 1%nat, (blen d), d, (Sink r). split; [unfold blen; pose proof (blen_pos d Nd); lia|].
    rewrite firstn_all_blen. split; [auto|]. intros [|f] Hf; [lia|]. cbn. now rewrite app_nil_r.
  - intros c X Y (-> & ->) _. exists 1%nat, [], (Sink r). rewrite app_nil_r. split; [auto|]. split; [reflexivity|]. split; [constructor|]. intros [|f] Hf; [lia|]. now cbn.
  - intros c X Y (-> & ->) _ _. exists 1%nat, []. rewrite app_nil_r. split; [reflexivity|]. intros [|f] Hf; [lia|]. split; [reflexivity|]. exists []. repeat split. intros [].
Qed.

(** ** Writing everything *)
Lemma write_all_dec C D V E K (H : cdec C D V E K) : forall (len : nat) c X Y d, (length d <= len)%nat -> C c X Y -> (d = [] \/ V (X ++ d) /\ K (X ++ d)) ->
  exists f0 o c', C c' (X ++ d) (Y ++ o) /\
    forall f, (f0 <= f)%nat -> result (write_all r lz f c d) = Some (IoOk tt, c') /\ joined (calls (write_all r lz f c d)) = o.
Proof using Type.
  induction len as [|len IH]; intros c X Y d Ld Hc Hv.
  - destruct d; [|cbn in Ld; lia]. exists 1%nat, [], c. rewrite !app_nil_r. split; [exact Hc|]. intros [|f] Hf; [lia|]. now cbn.
  - destruct d as [|a d]; [exists 1%nat, [], c; rewrite !app_nil_r; split; [exact Hc|]; intros [|f] Hf; [lia|]; now cbn|].
    destruct Hv as [Hv | [Hv Hk]]; [discriminate|]. set (dd := a :: d) in *. assert (Nd : dd <> []) by discriminate.
    destruct (cd_write _ _ _ _ _ H c X Y dd Hc Nd Hv Hk) as (f1 & n & o1 & c1 & Hn & Hc1 & E1).
    assert (Ed : X ++ dd = (X ++ firstn (N.to_nat n) dd) ++ skipn (N.to_nat n) dd) by (rewrite <- app_assoc, firstn_skipn; reflexivity).
    destruct (IH c1 (X ++ firstn (N.to_nat n) dd) (Y ++ o1) (skipn (N.to_nat n) dd)) as (f2 & o2 & c2 & Hc2 & E2).
    { rewrite skipn_length. lia. }
    { exact Hc1. }
    { right. rewrite <- Ed. auto. }
    exists (S (Nat.max f1 f2)), (o1 ++ o2), c2. rewrite Ed, app_assoc. split; [exact Hc2|]. intros [|f] Hf; [lia|].
    destruct (E1 f ltac:(lia)) as [R1 J1]. destruct (E2 f ltac:(lia)) as [R2 J2]. rewrite write_all_S. change (is_nil dd) with false. cbn beta iota.
    rewrite !calls_bind, !result_bind, R1. cbn beta iota. assert (n =? 0 = false) as -> by (apply N.eqb_neq; lia). rewrite R2, joined_app, J1, J2. auto.
Qed.

(** ** A layer on a chain *)
Section Layer.
Variables (W : writer r -> bytes -> bytes -> bytes -> Prop) (D : bytes -> bytes) (V E K : bytes -> Prop).
Hypothesis HW : wdec W D V E K.
Variables (C : chain r -> bytes -> bytes -> Prop) (D' : bytes -> bytes) (V' E' : bytes -> Prop).
Hypothesis HC : cdec C D' V' E' (fun _ => True).
Definition on_layer (c : chain r) (X Y : bytes) : Prop :=
  exists l i w y b yd, c = Layer r l (Some i) /\ l_pass r l = false /\ l_writer r l = Some w /\ W w X y b /\ y = yd ++ b /\ C i yd Y.

Lemma flush_writer_dec X (HV : V X) (HV' : V' (D X)) : forall (m : nat) l i w y b yd Y, (length (D X) - length yd <= m)%nat -> W w X y b -> y = yd ++ b -> C i yd Y ->
  exists f0 o w' i', W w' X (D X) [] /\ C i' (D X) (Y ++ o) /\
    forall f, (f0 <= f)%nat -> result (flush_writer r lz f l i w) = Some (IoOk w', l, Some i') /\ joined (calls (flush_writer r lz f l i w)) = o.
Proof using HW HC.
  induction m as [|m IH]; intros l i w y b yd Y Lm Hw Ey Hi; pose proof (wd_flush _ _ _ _ _ HW w X y b Hw HV) as Hf; destruct (wr_flush r w) as [fl w1] eqn:Ef.
  all: assert (Hx : exists o, W w1 X (y ++ o) (b ++ o) /\ ((exists u, fl = IoOk u) /\ y ++ o = D X \/ fl = IoErr IoWriteZero /\ b ++ o <> []))
    by (destruct fl as [u|[|]]; [destruct Hf as (o & Ho & Eo); exists o; split; [exact Ho|left; split; [now exists u|exact Eo]]|destruct Hf as (o & Ho & Eo); exists o; auto|contradiction]).
  all: clear Hf; destruct Hx as (o & Hw1 & Hx); pose proof (wd_buf _ _ _ _ _ HW _ _ _ _ Hw1) as Eb; pose proof (wd_clear _ _ _ _ _ HW _ _ _ _ Hw1) as Hw2.
  all: destruct (wd_prefix _ _ _ _ _ HW _ _ _ _ Hw1) as [z Hz].
  all: assert (Eyd : y ++ o = yd ++ (b ++ o)) by (rewrite Ey; now rewrite app_assoc).
  all: destruct (write_all_dec _ _ _ _ _ HC (length (b ++ o)) i yd Y (b ++ o) (Nat.le_refl _) Hi) as (f1 & o1 & i1 & Hi1 & E1);
    [right; split; [rewrite <- Eyd; apply (cd_valid _ _ _ _ _ HC) with (z := z); rewrite <- Hz; exact HV'|exact I]|].
  all: rewrite <- Eyd in Hi1.
  all: destruct Hx as [[(u & ->) Eo] | [-> Ne]].
  1, 3: rewrite Eo in Hw2, Hi1; exists (S f1), o1, (wr_clear r w1), i1; split; [exact Hw2|]; split; [exact Hi1|]; intros [|f] Hf; [lia|]; destruct (E1 f ltac:(lia)) as [R1 J1];
    rewrite flush_writer_S; rewrite Ef, Eb, !calls_bind, !result_bind, R1; cbn beta iota; cbn [result calls]; rewrite !app_nil_r; (split; [reflexivity|exact J1]).
  - exfalso. rewrite Hz, Eyd, !app_length in Lm. pose proof (blen_pos _ Ne). rewrite app_length in *. lia.
  - destruct (IH l i1 (wr_clear r w1) (y ++ o) [] (y ++ o) (Y ++ o1)) as (f2 & o2 & w3 & i3 & Hw3 & Hi3 & E2).
    { rewrite Eyd, app_length. pose proof (blen_pos _ Ne). rewrite Hz, Eyd, !app_length in Lm. rewrite Hz, Eyd, !app_length. rewrite app_length in *. lia. }
    { exact Hw2. } { now rewrite app_nil_r. } { exact Hi1. }
    exists (S (Nat.max f1 f2)), (o1 ++ o2), w3, i3. split; [exact Hw3|]. split; [rewrite app_assoc; exact Hi3|]. intros [|f] Hf; [lia|].
    destruct (E1 f ltac:(lia)) as [R1 J1]. destruct (E2 f ltac:(lia)) as [R2 J2].
    rewrite flush_writer_S. rewrite Ef, Eb, !calls_bind, !result_bind, R1. cbn beta iota. cbn [result calls]. rewrite R2, app_nil_r, joined_app, J1, J2. auto.
Qed.
Lemma layer_dec : cdec on_layer (fun x => D' (D x)) (fun x => V x /\ V' (D x)) (fun x => E x /\ E' (D x)) K.
Proof using HW HC.
  split.
  - intros x z. destruct (wd_mono _ _ _ _ _ HW x z) as [w ->]. apply (cd_mono _ _ _ _ _ HC).
  - intros x z [H1 H2]. split; [eapply (wd_valid _ _ _ _ _ HW), H1|]. destruct (wd_mono _ _ _ _ _ HW x z) as [w Ew]. rewrite Ew in H2. eapply (cd_valid _ _ _ _ _ HC), H2.
  - intros c X Y (l & i & w & y & b & yd & -> & Hp & Hl & Hw & Ey & Hi). destruct (wd_prefix _ _ _ _ _ HW _ _ _ _ Hw) as [z Hz]. destruct (cd_prefix _ _ _ _ _ HC _ _ _ Hi) as [z' Hz'].
    rewrite Hz, Ey, <- app_assoc. destruct (cd_mono _ _ _ _ _ HC yd (b ++ z)) as [v Hv]. exists (z' ++ v). rewrite Hv, Hz'. now rewrite app_assoc.
  - intros c X Y d (l & i & w & y & b & yd & -> & Hp & Hl & Hw & Ey & Hi) Nd [Hv Hv'] Hk.
    assert (HV : V X) by (eapply (wd_valid _ _ _ _ _ HW), Hv). assert (HV' : V' (D X)).
    { destruct (wd_mono _ _ _ _ _ HW X d) as [v Ev]. rewrite Ev in Hv'. eapply (cd_valid _ _ _ _ _ HC), Hv'. }
    pose proof (wd_write _ _ _ _ _ HW w X y b d Hw Nd Hv Hk) as H. destruct (wr_write r w d) as [[n|[|]] w1] eqn:Ew; [| |contradiction].
    + destruct H as (Hn & o & Ho). exists 1%nat, (if n =? 0 then blen d else n), [], (Layer r (with_writer r (Some w1) (with_writer r None l)) (Some i)).
      split; [pose proof (blen_pos _ Nd); unfold blen in *; destruct (N.eqb_spec n 0); lia|]. split.
      * exists (with_writer r (Some w1) (with_writer r None l)), i, w1, (y ++ o), (b ++ o), yd. rewrite app_nil_r. repeat split; try assumption. rewrite Ey. now rewrite app_assoc.
      * intros [|f] Hf; [lia|]. rewrite c_write_S. rewrite Hp, Hl, Ew. auto.
    + destruct H as (o & Ho & Ne).
      destruct (flush_writer_dec X HV HV' (length (D X) - length yd) (with_writer r None l) i w1 (y ++ o) (b ++ o) yd Y (Nat.le_refl _) Ho) as (f1 & o1 & w2 & i2 & Hw2 & Hi2 & E1);
        [rewrite Ey; now rewrite app_assoc|exact Hi|].
      pose proof (wd_write _ _ _ _ _ HW w2 X (D X) [] d Hw2 Nd Hv Hk) as H. destruct (wr_write r w2 d) as [[n|[|]] w3] eqn:Ew3; [| |contradiction].
      2: { destruct H as (o2 & Ho2 & Ne2). destruct (wd_prefix _ _ _ _ _ HW _ _ _ _ Ho2) as [z Hz]. symmetry in Hz. apply app_prefix_len in Hz. destruct Hz as [-> _]. now destruct Ne2. }
      destruct H as (Hn & o2 & Ho2). set (l3 := with_writer r (Some w3) (with_writer r None (with_writer r (Some w2) (with_writer r None l)))).
      exists (S (S f1)), (if n =? 0 then blen d else n), o1, (Layer r l3 (Some i2)).
      split; [pose proof (blen_pos _ Nd); unfold blen in *; destruct (N.eqb_spec n 0); lia|]. split.
      * exists l3, i2, w3, (D X ++ o2), ([] ++ o2), (D X). repeat split; assumption.
      * intros [|[|f]] Hf; [lia|lia|]. destruct (E1 (S f) ltac:(lia)) as [R1 J1]. rewrite c_write_S. rewrite Hp, Hl, Ew, !calls_bind, !result_bind, R1. cbn beta iota.
        rewrite c_write_S. change (l_pass r (with_writer r (Some w2) (with_writer r None l))) with (l_pass r l). rewrite Hp.
        change (l_writer r (with_writer r (Some w2) (with_writer r None l))) with (Some w2). cbn beta iota. rewrite Ew3. cbn [calls result]. rewrite app_nil_r. auto.
  - intros c X Y (l & i & w & y & b & yd & -> & Hp & Hl & Hw & Ey & Hi) [HV HV'].
    destruct (flush_writer_dec X HV HV' (length (D X) - length yd) (with_writer r None l) i w y b yd Y (Nat.le_refl _) Hw Ey Hi) as (f1 & o1 & w2 & i2 & Hw2 & Hi2 & E1).
    destruct (cd_flush _ _ _ _ _ HC i2 (D X) (Y ++ o1) Hi2 HV') as (f2 & o2 & i3 & Hi3 & Eo & Hdry & E2).
    set (l3 := with_writer r (Some w2) (with_writer r None l)). exists (S (Nat.max f1 f2)), (o1 ++ o2), (Layer r l3 (Some i3)). split; [|split; [|split]].
    + exists l3, i3, w2, (D X), [], (D X). rewrite app_assoc. repeat split; try assumption. now rewrite app_nil_r.
    + rewrite app_assoc. exact Eo.
    + constructor; [exact Hdry|]. intros w0 [= <-]. eapply wdec_dry; [exact HW|exact HV|exact Hw2].
    + intros [|f] Hf; [lia|]. destruct (E1 f ltac:(lia)) as [R1 J1]. destruct (E2 f ltac:(lia)) as [R2 J2]. rewrite c_flush_S. rewrite Hl. unfold flush_inner.
      rewrite !calls_bind, !result_bind, R1. cbn beta iota. cbn [result calls]. rewrite !calls_bind, !result_bind, R2. cbn beta iota. cbn [result calls]. rewrite !app_nil_r, joined_app, J1, J2. auto.
  - intros c X Y (l & i & w & y & b & yd & -> & Hp & Hl & Hw & Ey & Hi) [HV HV'] [HE HE'].
    destruct (flush_writer_dec X HV HV' (length (D X) - length yd) (with_writer r None l) i w y b yd Y (Nat.le_refl _) Hw Ey Hi) as (f1 & o1 & w2 & i2 & Hw2 & Hi2 & E1).
    destruct (cd_finish _ _ _ _ _ HC i2 (D X) (Y ++ o1) Hi2 HV' HE') as (f2 & o2 & Eo & E2). exists (S (S (Nat.max f1 f2))), (o1 ++ o2). split; [now rewrite app_assoc|].
    intros [|[|f]] Hf; try lia. destruct (E1 (S f) ltac:(lia)) as [R1 J1]. destruct (E2 (S f) ltac:(lia)) as (R2 & l2 & C2 & N2 & J2). rewrite c_finish_S. rewrite Hl. unfold flush_inner.
    rewrite !calls_bind, !result_bind, R1. cbn beta iota. rewrite (wd_finish _ _ _ _ _ HW w2 X Hw2 HE), write_all_S. cbn [is_nil dbind]. rewrite R2, C2. split; [reflexivity|]. exists (calls (flush_writer r lz (S f) (with_writer r None l) i w) ++ l2).
    rewrite joined_app, J1, J2, app_assoc. split; [reflexivity|]. split; [|reflexivity]. intros Hi'. apply in_app_or in Hi'. destruct Hi' as [Hi' | Hi']; [|exact (N2 Hi')].
    destruct (data_all r lz (S f)) as (_ & _ & H3). exact (H3 _ _ _ Hi').
Qed.
End Layer.

(** ** A layer that does nothing *)
Definition on_off (C : chain r -> bytes -> bytes -> Prop) (c : chain r) (X Y : bytes) : Prop :=
  exists l i, c = Layer r l (Some i) /\ l_pass r l = true /\ l_writer r l = Some (WNull r) /\ C i X Y.
Lemma null_flush f l i : flush_writer r lz (S (S f)) l i (WNull r) = DmRet (IoOk (WNull r), l, Some i).
Proof using Type. rewrite flush_writer_S. cbn [wr_flush wr_buf]. rewrite write_all_S. reflexivity. Qed.
Lemma off_dec C D V E K : cdec C D V E K -> cdec (on_off C) D V E K.
Proof using Type.
  intros HC. split; try apply HC.
  - intros c X Y (l & i & -> & _ & _ & Hi). eapply (cd_prefix _ _ _ _ _ HC), Hi.
  - intros c X Y d (l & i & -> & Hp & Hl & Hi) Nd Hv Hk. destruct (cd_write _ _ _ _ _ HC i X Y d Hi Nd Hv Hk) as (f0 & n & o & i' & Hn & Hi' & Ef).
    exists (S f0), n, o, (Layer r l (Some i')). split; [exact Hn|]. split; [exists l, i'; auto|]. intros [|f] Hf; [lia|]. destruct (Ef f ltac:(lia)) as [R J].
    rewrite c_write_S, Hp, calls_bind, result_bind, R. cbn [calls result]. now rewrite app_nil_r.
  - intros c X Y (l & i & -> & Hp & Hl & Hi) Hv. destruct (cd_flush _ _ _ _ _ HC i X Y Hi Hv) as (f0 & o & i' & Hi' & Eo & Hd & Ef). set (l' := with_writer r (Some (WNull r)) (with_writer r None l)).
    exists (S (S (S f0))), o, (Layer r l' (Some i')). split; [exists l', i'; auto|]. split; [exact Eo|]. split.
    + constructor; [exact Hd|]. intros w0 [= <-]. exists (fun w => w = WNull r). split; [reflexivity|]. intros w ->. exists (WNull r). auto.
    + intros [|[|[|f]]] Hf; try lia. destruct (Ef (S (S f)) ltac:(lia)) as [R J]. rewrite c_flush_S. rewrite Hl. unfold flush_inner. rewrite null_flush. cbn [dbind].
      rewrite calls_bind, result_bind, R. cbn [calls result]. now rewrite app_nil_r.
  - intros c X Y (l & i & -> & Hp & Hl & Hi) Hv He. destruct (cd_finish _ _ _ _ _ HC i X Y Hi Hv He) as (f0 & o & Eo & Ef). exists (S (S (S f0))), o. split; [exact Eo|].
    intros [|[|[|f]]] Hf; try lia. destruct (Ef (S (S f)) ltac:(lia)) as [R J]. rewrite c_finish_S. rewrite Hl. unfold flush_inner. rewrite null_flush. cbn [dbind wr_finish]. rewrite write_all_S. cbn [is_nil dbind].
    auto.
Qed.

(** ** Calls *)
Lemma decompress_dec C D V E K (H : cdec C D V E K) c X Y d : C c X Y -> V (X ++ d) -> K (X ++ d) ->
  exists f0 o c', C c' (X ++ d) (Y ++ o) /\ Y ++ o = D (X ++ d) /\ dry c' /\
    forall f, (f0 <= f)%nat -> result (decompress r lz f c d) = Some (IoOk tt, c') /\ joined (calls (decompress r lz f c d)) = o.
Proof using Type.
  intros Hc Hv Hk. destruct (write_all_dec _ _ _ _ _ H (length d) c X Y d (Nat.le_refl _) Hc (or_intror (conj Hv Hk))) as (f1 & o1 & c1 & Hc1 & E1).
  destruct (cd_flush _ _ _ _ _ H c1 _ _ Hc1 Hv) as (f2 & o2 & c2 & Hc2 & Eo & Hd & E2). exists (Nat.max f1 f2), (o1 ++ o2), c2. rewrite app_assoc. split; [exact Hc2|]. split; [exact Eo|]. split; [exact Hd|].
  intros f Hf. destruct (E1 f ltac:(lia)) as [R1 J1]. destruct (E2 f ltac:(lia)) as [R2 J2]. unfold decompress. rewrite !calls_bind, !result_bind, R1. cbn beta iota. rewrite R2, joined_app, J1, J2. auto.
Qed.
(** One call after the other: the chain afterwards. *)
Fixpoint after (f : nat) (c : chain r) (cs : list bytes) : option (chain r) :=
  match cs with
  | [] => Some c
  | b :: cs => match result (decompress r lz f c b) with Some (IoOk _, c') => after f c' cs | _ => None end
  end.
Lemma delivered_dec C D V E K (H : cdec C D V E K) : forall cs c X Y, C c X Y -> V (X ++ concat cs) ->
  (forall a b, cs = a ++ b -> K (X ++ concat a)) ->
  exists f0 o c', C c' (X ++ concat cs) (Y ++ o) /\ (cs <> [] -> Y ++ o = D (X ++ concat cs)) /\ (cs = [] -> o = []) /\ (cs <> [] -> dry c') /\
    forall f, (f0 <= f)%nat -> after f c cs = Some c' /\ exists l, delivered r lz f c cs = Some l /\ joined l = o.
Proof using Type.
  induction cs as [|d cs IH]; intros c X Y Hc Hv Hk; cbn [concat].
  - exists 0%nat, [], c. rewrite !app_nil_r. split; [exact Hc|]. split; [congruence|]. split; [reflexivity|]. split; [congruence|]. intros f _. split; [reflexivity|]. now exists [].
  - cbn [concat] in Hv. rewrite app_assoc in Hv.
    destruct (decompress_dec _ _ _ _ _ H c X Y d Hc (cd_valid _ _ _ _ _ H _ _ Hv)) as (f1 & o1 & c1 & Hc1 & Eo1 & Hd1 & E1).
    { specialize (Hk [d] cs eq_refl). cbn in Hk. now rewrite app_nil_r in Hk. }
    destruct (IH c1 (X ++ d) (Y ++ o1) Hc1 Hv) as (f2 & o2 & c2 & Hc2 & Eo2 & En & Hd2 & E2).
    { intros a b E0. specialize (Hk (d :: a) b). cbn in Hk. rewrite app_assoc in Hk. apply Hk. now rewrite E0. }
    exists (Nat.max f1 f2), (o1 ++ o2), c2. split; [rewrite !app_assoc in *; exact Hc2|]. split; [|split; [discriminate|split]].
    + intros _. destruct cs as [|d' cs]; [rewrite (En eq_refl), app_nil_r; cbn; rewrite app_nil_r; exact Eo1|].
      rewrite !app_assoc. cbn [concat]. apply Eo2. discriminate.
    + intros _. destruct cs as [|d' cs]; [|apply Hd2; discriminate]. destruct (E2 f2 (Nat.le_refl _)) as [[= <-] _]. exact Hd1.
    + intros f Hf. destruct (E1 f ltac:(lia)) as [R1 J1]. destruct (E2 f ltac:(lia)) as (Ea & l & Hl & Jl). cbn [delivered after]. rewrite R1, Hl. split; [exact Ea|].
      eexists. split; [reflexivity|]. now rewrite joined_app, J1, Jl.
Qed.
Lemma whole_after f : forall cs c c' l, after f c cs = Some c' -> delivered r lz f c cs = Some l -> result (c_finish r lz f c') = Some (IoOk tt) ->
  delivered_whole r lz f c cs = Some (l ++ calls (c_finish r lz f c')).
Proof using Type.
  induction cs as [|b cs IH]; intros c c' l; cbn [after delivered delivered_whole].
  - intros [= <-] [= <-] ->. reflexivity.
  - destruct (result (decompress r lz f c b)) as [[[u|] c1]|]; try discriminate. intros Ea Ed Ef. destruct (delivered r lz f c1 cs) as [l1|] eqn:E1; [|discriminate]. injection Ed as <-.
    rewrite (IH c1 c' l1 Ea E1 Ef). cbn. now rewrite app_assoc.
Qed.

(** ** The decoders of the crates *)
Section Raw.
Variables (k : rawkind) (D : bytes -> bytes) (V E : bytes -> Prop) (rep : rw_st r -> bytes -> bytes -> Prop).
Hypothesis HD : decodes r k D V E rep.
Definition ended (x : bytes) : Prop := forall z, D (x ++ z) = D x /\ V (x ++ z) /\ E (x ++ z).
Definition raw_rep (s : rw_st r) (X y b : bytes) : Prop :=
  exists x, rep s x y /\ rw_buf r s = Some b /\ (X = x \/ exists x0 u z, ended x0 /\ x = x0 ++ u /\ X = x0 ++ z).
Lemma raw_same s X y b : raw_rep s X y b -> exists x, rep s x y /\ D X = D x.
Proof using HD.
  intros (x & Hr & _ & [-> | (x0 & u & z & He & -> & ->)]); [eauto|]. exists (x0 ++ u). split; [exact Hr|]. destruct (He z) as [-> _]. now destruct (He u) as [-> _].
Qed.
Lemma raw_prefix s X y b : raw_rep s X y b -> exists z, D X = y ++ z.
Proof using HD. intros H. destruct (raw_same _ _ _ _ H) as (x & Hr & ->). exact (dec_rep _ _ _ _ _ _ HD _ _ _ Hr). Qed.
Lemma raw_write s X y b d : raw_rep s X y b -> d <> [] -> V (X ++ d) ->
  match rw_write r s d with
  | (IoOk n, s') => n <= blen d /\ exists o, raw_rep s' (X ++ firstn (N.to_nat (if n =? 0 then blen d else n)) d) (y ++ o) (b ++ o)
  | (IoErr IoWriteZero, s') => exists o, raw_rep s' X (y ++ o) (b ++ o) /\ b ++ o <> []
  | (IoErr IoOther, _) => False
  end.
Proof using HD.
  intros (x & Hr & Hb & Hx) Nd Hv. assert (Vx : V (x ++ d)).
  { destruct Hx as [-> | (x0 & u & z & He & -> & ->)]; [exact Hv|]. rewrite <- app_assoc. apply He. }
  pose proof (dec_write _ _ _ _ _ _ HD s x y b d Hr Hb Nd Vx) as H. destruct (rw_write r s d) as [[n|[|]] s']; [| |contradiction].
  - destruct H as (Hn & (o & Ho & Hbo) & H0). split; [exact Hn|]. exists o. exists (x ++ firstn (N.to_nat n) d). split; [exact Ho|]. split; [exact Hbo|].
    destruct (N.eqb_spec n 0) as [->|Hz].
    + cbn [N.to_nat firstn]. rewrite app_nil_r, firstn_all_blen. right. destruct Hx as [-> | (x0 & u & z & He & -> & ->)].
      * exists x, [], d. split; [exact (H0 eq_refl)|]. split; [now rewrite app_nil_r|reflexivity].
      * exists x0, u, (z ++ d). split; [exact He|]. split; [reflexivity|now rewrite app_assoc].
    + destruct Hx as [-> | (x0 & u & z & He & -> & ->)]; [now left|]. right. exists x0, (u ++ firstn (N.to_nat n) d), (z ++ firstn (N.to_nat n) d).
      split; [exact He|]. split; now rewrite app_assoc.
  - destruct H as (o & Ho & Hbo & Ne). exists o. split; [|exact Ne]. exists x. auto.
Qed.
Lemma raw_flush s X y b : raw_rep s X y b -> V X ->
  match rw_flush r s with
  | (IoOk _, s') => exists o, raw_rep s' X (y ++ o) (b ++ o) /\ y ++ o = D X
  | (IoErr IoWriteZero, s') => exists o, raw_rep s' X (y ++ o) (b ++ o) /\ b ++ o <> []
  | (IoErr IoOther, _) => False
  end.
Proof using HD.
  intros H Hv. destruct (raw_same _ _ _ _ H) as (x1 & _ & _). destruct H as (x & Hr & Hb & Hx). assert (Vx : V x).
  { destruct Hx as [-> | (x0 & u & z & He & -> & ->)]; [exact Hv|apply He]. }
  assert (Ed : D X = D x) by (destruct Hx as [-> | (x0 & u & z & He & -> & ->)]; [reflexivity|]; destruct (He z) as [-> _]; now destruct (He u) as [-> _]).
  pose proof (dec_flush _ _ _ _ _ _ HD s x y b Hr Hb Vx) as H. destruct (rw_flush r s) as [[n|[|]] s']; [| |contradiction];
    destruct H as (o & Ho & Hbo & Ne); exists o; (split; [exists x; auto|]); [rewrite Ed; exact Ne|exact Ne].
Qed.
Lemma raw_clear s X y b : raw_rep s X y b -> raw_rep (rw_clear r s) X y [].
Proof using HD. intros (x & Hr & Hb & Hx). destruct (dec_clear _ _ _ _ _ _ HD _ _ _ _ Hr Hb). exists x. auto. Qed.
Lemma raw_finish s X : raw_rep s X (D X) [] -> E X -> rw_finish r s = IoOk [].
Proof using HD.
  intros (x & Hr & Hb & Hx) He. assert (Ed : D X = D x) by (destruct Hx as [-> | (x0 & u & z & Hn & -> & ->)]; [reflexivity|]; destruct (Hn z) as [-> _]; now destruct (Hn u) as [-> _]).
  rewrite Ed in Hr. apply (dec_finish _ _ _ _ _ _ HD s x Hr Hb). destruct Hx as [-> | (x0 & u & z & Hn & -> & ->)]; [exact He|apply Hn].
Qed.
Lemma raw_new : raw_rep (rw_new r k) [] [] [].
Proof using HD. destruct (dec_new _ _ _ _ _ _ HD). exists []. auto. Qed.
Lemma raw_dec : wdec (fun w X y b => exists s, w = WRaw r s /\ raw_rep s X y b) D V E (fun _ => True).
Proof using HD.
  split.
  - apply HD. - apply HD. - apply HD.
  - intros w X y b (s & -> & H). eapply raw_prefix, H.
  - intros w X y b d (s & -> & H) Nd Hv _. cbn [wr_write]. pose proof (raw_write s X y b d H Nd Hv) as G. destruct (rw_write r s d) as [[n|[|]] s']; [| |contradiction].
    + destruct G as (Hn & o & Ho). split; [exact Hn|]. exists o. eauto.
    + destruct G as (o & Ho & Ne). exists o. eauto.
  - intros w X y b (s & -> & H) Hv. cbn [wr_flush]. pose proof (raw_flush s X y b H Hv) as G. destruct (rw_flush r s) as [[n|[|]] s']; [| |contradiction]; destruct G as (o & Ho & Ne); exists o; eauto.
  - intros w X y b (s & -> & (x & _ & Hb & _)). exact Hb.
  - intros w X y b (s & -> & H). exists (rw_clear r s). split; [reflexivity|]. eapply raw_clear, H.
  - intros w X (s & -> & H) He. eapply raw_finish; eauto.
Qed.
End Raw.
End Contracts.
