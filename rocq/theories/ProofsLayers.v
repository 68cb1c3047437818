(** The number of layers, and data no decoder wants. *)
From Verif Require Import Base ModelState ModelTx ModelConn ModelDecomp SpecConn SpecDecomp ProofsInflate ProofsGzip.
From Coq Require Import Lia.
Open Scope N_scope.

Lemma count_app p (a b : list cenc) : enc_count p (a ++ b) = enc_count p a + enc_count p b.
Proof. unfold enc_count. rewrite filter_app, app_length. lia. Qed.
Lemma prepend_layers ce d : ce <> CeNone -> layers_of (prepend_decompressor ce d) = ce :: layers_of d.
Proof. intro Nz. unfold prepend_decompressor, layers_of. destruct ce; try congruence; destruct (t_dec d); reflexivity. Qed.
Lemma prepend_none d : prepend_decompressor CeNone d = d. Proof. reflexivity. Qed.
Lemma count_cons p ce l : enc_count p (ce :: l) = (if p ce then 1 else 0) + enc_count p l.
Proof. unfold enc_count. cbn [filter]. destruct (p ce); cbn [length]; lia. Qed.
Lemma prepend_count p ce d : enc_count p (layers_of (prepend_decompressor ce d)) <= (if p ce then 1 else 0) + enc_count p (layers_of d).
Proof. destruct ce; try (rewrite prepend_layers by discriminate; rewrite count_cons; lia). rewrite prepend_none. lia. Qed.
Lemma list_layers sd cfg m l : forall n z d, c_layer_limit cfg = Some m -> n <= m ->
  enc_count (fun _ => true) (layers_of d) <= n -> enc_count (fun _ => true) (layers_of (fst (encoding_list sd cfg n z l d))) <= m.
Proof.
  induction l as [|v l IH]; intros n z d Em Hn Hd; cbn [encoding_list]; [cbn; lia|].
  destruct (is_nil v); [now apply IH|]. cbv zeta. unfold over at 1. rewrite Em. destruct (m <? n + 1) eqn:E; [cbn; lia|]. apply N.ltb_ge in E.
  destruct (token_encoding v) as [ce lg]. match goal with |- context [if ?b then _ else _] => destruct b end; [cbn; lia|].
  match goal with |- context [encoding_list sd cfg ?a ?b l ?c] => pose proof (IH a b c Em E) as K; destruct (encoding_list sd cfg a b l c) as [d' lg'] end.
  cbn [fst] in *. apply K. pose proof (prepend_count (fun _ => true) ce d). cbn beta iota in *. lia.
Qed.
Notation lzma := is_lzma.
Lemma list_lzma sd cfg m l : forall n z d, c_lzma_layers cfg = Some m -> z <= n -> enc_count lzma (layers_of d) <= z ->
  enc_count lzma (layers_of d) <= m ->
  enc_count lzma (layers_of (fst (encoding_list sd cfg n z l d))) <= m.
Proof.
  induction l as [|v l IH]; intros n z d Em Hn Hz Hd; cbn [encoding_list]; [cbn; lia|].
  destruct (is_nil v); [now apply IH|]. cbv zeta. destruct (over (c_layer_limit cfg) (n + 1)); [cbn; lia|].
  destruct (token_encoding v) as [ce lg]. pose proof (prepend_count lzma ce d) as P. unfold over. rewrite Em. destruct ce; cbn [andb is_lzma] in *;
    try (match goal with |- context [encoding_list sd cfg ?a ?b l ?c] => pose proof (IH a b c Em) as K; destruct (encoding_list sd cfg a b l c) as [d' lg'] end; cbn [fst] in *; apply K; lia).
  match goal with |- context [if ?b then _ else _] => destruct b eqn:E end; [cbn; lia|]. apply N.ltb_ge in E.
  match goal with |- context [encoding_list sd cfg ?a ?b l ?c] => pose proof (IH a b c Em) as K; destruct (encoding_list sd cfg a b l c) as [d' lg'] end; cbn [fst] in *.
  apply K; destruct sd; lia.
Qed.
Lemma init_layers sd cfg m d : c_layer_limit cfg = Some m -> t_dec d = None ->
  enc_count (fun _ => true) (layers_of (fst (initialize_decompressors sd cfg d))) <= N.max 1 m.
Proof.
  intros Em Ed. unfold initialize_decompressors. cbv zeta.
  destruct (match headers_get_nocase_nozero _ _ with Some h => _ | None => _ end) as [fast slow].
  assert (E0 : forall x y, layers_of (set_t_cep x (set_t_ce y d)) = []) by (intros; unfold layers_of; cbn [t_dec set_t_cep set_t_ce]; now rewrite Ed).
  assert (K0 : forall x y, enc_count (fun _ => true) (layers_of (set_t_cep x (set_t_ce y d))) = 0) by (intros; now rewrite E0).
  match goal with |- context [match ?c with CeNone => _ | _ => _ end] => destruct c eqn:Ec end;
    try (cbn [fst]; pose proof (prepend_count (fun _ => true) (if decompression_enabled sd cfg then fast else CeNone) (set_t_cep (if decompression_enabled sd cfg then fast else CeNone) (set_t_ce fast d))) as P; rewrite K0, Ec in P; lia).
  destruct (headers_get_nocase_nozero _ _) as [h|]; [|cbn [fst]; rewrite K0; lia]. destruct (_ && slow); [|cbn [fst]; rewrite K0; lia].
  pose proof (list_layers sd cfg m (split_on (fun c => (c =? 44) || (c =? 32)) (hd_value h)) 0 0 (set_t_cep CeNone (set_t_ce fast d)) Em) as P. rewrite K0 in P. lia.
Qed.
Lemma init_lzma sd cfg m d : c_lzma_layers cfg = Some m -> t_dec d = None ->
  enc_count lzma (layers_of (fst (initialize_decompressors sd cfg d))) <= N.max 1 m.
Proof.
  intros Em Ed. unfold initialize_decompressors. cbv zeta.
  destruct (match headers_get_nocase_nozero _ _ with Some h => _ | None => _ end) as [fast slow].
  assert (E0 : forall x y, layers_of (set_t_cep x (set_t_ce y d)) = []) by (intros; unfold layers_of; cbn [t_dec set_t_cep set_t_ce]; now rewrite Ed).
  assert (K0 : forall x y, enc_count lzma (layers_of (set_t_cep x (set_t_ce y d))) = 0) by (intros; now rewrite E0).
  match goal with |- context [match ?c with CeNone => _ | _ => _ end] => destruct c eqn:Ec end;
    try (cbn [fst]; pose proof (prepend_count lzma (if decompression_enabled sd cfg then fast else CeNone) (set_t_cep (if decompression_enabled sd cfg then fast else CeNone) (set_t_ce fast d))) as P; rewrite K0, Ec in P; destruct (lzma _) in P; lia).
  destruct (headers_get_nocase_nozero _ _) as [h|]; [|cbn [fst]; rewrite K0; lia]. destruct (_ && slow); [|cbn [fst]; rewrite K0; lia].
  pose proof (list_lzma sd cfg m (split_on (fun c => (c =? 44) || (c =? 32)) (hd_value h)) 0 0 (set_t_cep CeNone (set_t_ce fast d)) Em) as P. rewrite K0 in P. lia.
Qed.

(** * Restarts *)
Fixpoint always {A} (Q : A -> Prop) (m : dm A) : Prop :=
  match m with DmRet a => Q a | DmFuel => True | DmCall _ k => always Q (k true) /\ always Q (k false) end.
Lemma always_bind {A B} (P : A -> Prop) (Q : B -> Prop) (m : dm A) (f : A -> dm B) : always P m -> (forall a, P a -> always Q (f a)) -> always Q (dbind m f).
Proof. intros Hm Hf. induction m as [a|d k IH|]; cbn in *; auto. destruct Hm. split; apply IH; assumption. Qed.
Lemma always_result {A} (Q : A -> Prop) (m : dm A) a : always Q m -> all_accept m = Some a -> Q a.
Proof. induction m as [b|d k IH|]; cbn; [now intros H [= <-]|intros [H _]; now apply IH|discriminate]. Qed.
Section Restarts.
Variable r : raw.
Variable lz : bool.
Definition few (c : chain r) : Prop := restarts_within r 3 c.
Definition few_inner (i : option (chain r)) : Prop := match i with Some c => few c | None => True end.
Lemma restart_few l l' : restart r lz l = Some l' -> l_restarts r l' <= 3.
Proof using Type. unfold restart. destruct (l_restarts r l <? 3) eqn:E; [|discriminate]. apply N.ltb_lt in E. destruct (match l_enc r l with CeGzip => _ | _ => _ end); [|discriminate]. destruct (new_writer r lz _) as [[w p]|]; [|discriminate]. intros [= <-]. cbn. lia. Qed.
Lemma pass_few p c : few c -> few (set_passthrough r p c).
Proof using Type.
  unfold few. revert c. fix IH 1. intros [|l [c|]]; cbn [set_passthrough restarts_within]; [auto| |]; intros [H1 H2]; split; try exact H1; auto; try (now apply IH).
Qed.
Lemma few_all f :
  (forall c d, few c -> always (fun x => few (snd x)) (c_write r lz f c d)) /\
  (forall c d, few c -> always (fun x => few (snd x)) (write_all r lz f c d)) /\
  (forall l i w, l_restarts r l <= 3 -> few i -> always (fun x => l_restarts r (snd (fst x)) <= 3 /\ few_inner (snd x)) (flush_writer r lz f l i w)).
Proof using Type.
  induction f as [|f (IW & IA & IF)]; [repeat split; intros; exact I|]. split; [|split].
  - intros c d Hc. rewrite c_write_S. destruct c as [|l inner]; [cbn; auto|]. destruct Hc as [Hl Hi]. fold few in Hi. destruct (l_pass r l).
    + destruct inner as [i|]; [|cbn; auto]. eapply always_bind; [apply IW, Hi|]. intros [x i'] H. cbn. auto.
    + destruct (l_writer r l) as [w|] eqn:Ew; [|cbn; auto]. cbv zeta. destruct (wr_write r w d) as [[m|[|]] w']; [cbn; auto| |].
      * eapply always_bind with (P := fun x => l_restarts r (snd (fst x)) <= 3 /\ few_inner (snd x)).
        { destruct inner as [i|]; [|cbn; auto]. now apply IF. }
        intros [[x l'] i'] [H1 H2]. cbn in H1, H2. destruct x; [|cbn; auto]. apply IW. split; [exact H1|exact H2].
      * destruct (restart r lz (with_writer r None l)) as [l'|] eqn:E.
        { apply IW. split; [exact (restart_few _ _ E)|exact Hi]. }
        destruct inner as [i|]; [|cbn; auto]. eapply always_bind; [apply IW, pass_few, Hi|]. intros [x i'] H. cbn in H. destruct x; cbn; split; auto. now apply pass_few.
  - intros c d Hc. rewrite write_all_S. destruct (is_nil d); [exact Hc|]. eapply always_bind; [apply IW, Hc|]. intros [x c'] H. cbn in H. destruct x; [|exact H]. destruct (_ =? 0); [exact H|now apply IA].
  - intros l i w Hl Hi. rewrite flush_writer_S. destruct (wr_flush r w) as [fl w']. eapply always_bind with (P := fun x => few (snd (fst x))).
    + destruct (wr_buf r w') as [b|]; [|exact Hi]. eapply always_bind; [apply IA, Hi|]. intros [x i'] H. exact H.
    + intros [[x i'] w''] H. cbn in H. destruct x; [|cbn; auto]. destruct fl as [|[|]]; [cbn; auto|now apply IF|]. destruct (restart r lz l) as [l'|] eqn:E; cbn; auto. split; [exact (restart_few _ _ E)|exact H].
Qed.
Lemma few_flush f : forall c, few c -> always (fun x => few (snd x)) (c_flush r lz f c).
Proof using Type.
  induction f as [|f IH]; intros c Hc; [exact I|]. cbn [c_flush]. destruct c as [|l inner]; [exact Hc|]. destruct Hc as [Hl Hi].
  eapply always_bind with (P := fun x => l_restarts r (snd (fst x)) <= 3 /\ few_inner (snd x)).
  - destruct (l_writer r l) as [w|]; [|cbn; auto]. eapply always_bind with (P := fun x => l_restarts r (snd (fst x)) <= 3 /\ few_inner (snd x)).
    + unfold flush_inner. destruct inner as [i|]; [|cbn; auto]. now apply (proj2 (proj2 (few_all f))).
    + intros [[x l'] i'] H. destruct x; exact H.
  - intros [[x l'] i'] [H1 H2]. cbn in H1, H2. destruct x; [|split; assumption]. destruct i' as [i|]; [|split; assumption]. eapply always_bind; [apply IH, H2|]. intros [x i'] H. split; assumption.
Qed.
Lemma few_decompress f c d : few c -> always (fun x => few (snd x)) (decompress r lz f c d).
Proof using Type. intro H. unfold decompress. eapply always_bind; [apply few_all, H|]. intros [x c'] K. destruct x; [now apply few_flush|exact K]. Qed.
Lemma few_chain f dc c : chain_of r lz f dc = Some c -> few c.
Proof using Type.
  revert c. induction dc as [|[ce|b p] dc IH]; cbn [chain_of]; intros c.
  - intros [= <-]. exact I.
  - destruct (chain_of r lz f dc) as [c0|]; [|discriminate]. cbn. intros [= <-]. unfold prepend. destruct (new_writer r lz ce) as [[w p]|]; [|now apply IH]. split; [cbn; lia|now apply IH].
  - destruct (chain_of r lz f dc) as [c0|]; [|discriminate]. destruct (all_accept (decompress r lz f c0 b)) as [[[]]|] eqn:E; try discriminate.
    pose proof (always_result _ _ _ (few_decompress f c0 b (IH _ eq_refl)) E) as K. cbn in K. intros [= <-]. destruct p; [now apply pass_few|exact K].
Qed.

(** * Data no decoder wants *)
Lemma start_error d : d <> [] -> not_gzip d -> parse_start d = GsError.
Proof using Type.
  intros Nd H. destruct d as [|a d]; [congruence|]. destruct (N.eq_dec a 31) as [->|Na].
  2:{ destruct a as [|p]; [reflexivity|]. repeat (destruct p; try reflexivity). congruence. }
  destruct d as [|b d]; [destruct (H [139; 8]) as [H1 _]; now contradiction H1|]. destruct (N.eq_dec b 139) as [->|Nb].
  2:{ destruct b as [|p]; [reflexivity|]. repeat (destruct p; try reflexivity). congruence. }
  destruct d as [|c d]; [destruct (H [8]) as [H1 _]; now contradiction H1|]. destruct (N.eq_dec c 8) as [->|Nc].
  2:{ destruct c as [|p]; [reflexivity|]. repeat (destruct p; try reflexivity). congruence. }
  destruct (H d) as [_ H2]. now contradiction H2.
Qed.
Definition unwanted (ce : cenc) (d : bytes) : Prop :=
  not_gzip d /\ rejects r RkDeflate d /\ rejects r RkZlib d /\ (ce = CeLzma -> lz = true /\ rejects r RkLzma d).
Lemma refuses_gzip d : d <> [] -> not_gzip d -> refuses r lz CeGzip d.
Proof using Type. intros Nd H. eexists. split; [reflexivity|]. cbn. unfold gz_write. cbn [gz_new gz_state gz_buf app]. rewrite start_error by assumption. reflexivity. Qed.
Lemma refuses_raw ce k d : new_writer r lz ce = Some (WRaw r (rw_new r k), false) -> rejects r k d -> refuses r lz ce d.
Proof using Type. intros E H. eexists. split; [exact E|]. cbn. unfold rejects in H. destruct (rw_write r (rw_new r k) d). exact H. Qed.
Lemma new_depth ces : (depth r (new_chain r lz ces) <= length ces)%nat.
Proof using Type. induction ces as [|ce ces IH]; [apply Nat.le_refl|]. cbn [new_chain fold_right length]. unfold prepend at 1. fold (new_chain r lz ces). destruct (new_writer r lz ce) as [[w p]|]; cbn [depth]; lia. Qed.
Lemma unwanted_delivers ce ces D V E d ds f : In ce [CeGzip; CeDeflate; CeZlib; CeLzma] -> unwanted ce d -> layers_decode r lz ces D V E -> d <> [] -> ~ In [] ds -> (length ces + 10 <= f)%nat ->
  delivered r lz f (new_chain r lz (ce :: ces)) (d :: ds) = Some (map Some (d :: ds)).
Proof using Type.
  intros Hce (Hg & Hd & Hz & Hl) Hces Nd Nds Hf. pose proof (new_depth ces) as Hn.
  assert (Rg := refuses_gzip d Nd Hg). assert (Rd : refuses r lz CeDeflate d) by (eapply refuses_raw; [reflexivity|exact Hd]). assert (Rz : refuses r lz CeZlib d) by (eapply refuses_raw; [reflexivity|exact Hz]).
  assert (Rl : ce = CeLzma -> refuses r lz CeLzma d) by (intro E0; destruct (Hl E0) as [El Hr]; eapply refuses_raw; [cbn; now rewrite El|exact Hr]).
  assert (exists w, new_writer r lz ce = Some (w, false) /\ refuses r lz ce d /\ refuses r lz (next_enc ce) d /\ refuses r lz (next_enc (next_enc ce)) d /\ refuses r lz (next_enc (next_enc (next_enc ce))) d) as (w & Ew & R0 & R1 & R2 & R3).
  { destruct Hce as [<-|[<-|[<-|[<-|[]]]]]; cbn [next_enc].
    - destruct Rg as (w & E0 & K). exists w. repeat split; try assumption; now exists w.
    - destruct Rd as (w & E0 & K). exists w. repeat split; try assumption; now exists w.
    - destruct Rz as (w & E0 & K). exists w. repeat split; try assumption; now exists w.
    - destruct (Rl eq_refl) as (w & E0 & K). exists w. repeat split; try assumption; now exists w. }
  assert (En : new_chain r lz (ce :: ces) = Layer r (mk_layer r (Some w) ce false 0) (Some (new_chain r lz ces))) by (cbn [new_chain fold_right]; unfold prepend at 1; rewrite Ew; reflexivity).
  rewrite En. cbn [delivered map].
  destruct (refused_passes r lz f ce d w (new_chain r lz ces) Nd ltac:(lia) Ew (chain_dry r lz ces D V E Hces) R0 R1 R2 R3) as (c & Hc1 & Hc2 & Hc3 & -> & ->). cbn beta iota. rewrite (pass_delivered r lz ds f Nds c Hc1 Hc2) by lia. reflexivity.
Qed.
End Restarts.
Lemma unwanted_passes r lz ce ces D V E d ds f : In ce [CeGzip; CeDeflate; CeZlib; CeLzma] ->
  not_gzip d -> rejects r RkDeflate d -> rejects r RkZlib d -> (ce = CeLzma -> lz = true /\ rejects r RkLzma d) ->
  layers_decode r lz ces D V E -> d <> [] -> ~ In [] ds -> (length ces + 10 <= f)%nat ->
  delivered r lz f (new_chain r lz (ce :: ces)) (d :: ds) = Some (map Some (d :: ds)).
Proof. intros. eapply unwanted_delivers; eauto. split; [assumption|]. split; [assumption|]. split; assumption. Qed.
Lemma layers_bounded sd cfg d : t_dec d = None ->
  let ls := layers_of (fst (initialize_decompressors sd cfg d)) in
  (forall m, c_layer_limit cfg = Some m -> enc_count (fun _ => true) ls <= N.max 1 m) /\
  (forall m, c_lzma_layers cfg = Some m -> enc_count is_lzma ls <= N.max 1 m).
Proof. intros Hd ls. split; intros m Em; [now apply init_layers|now apply init_lzma]. Qed.
