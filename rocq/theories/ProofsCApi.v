(** Proofs for C73. *)
From Verif Require Import Base ModelBstr ModelState ModelTx ModelConn ModelCApi Spec SpecBytes SpecConn SpecCApi ProofsBase ProofsBstr ProofsParsers ProofsBytes ProofsConn ProofsCore ProofsLoop ProofsHist ProofsRel ProofsOnce.
From Coq Require Import ZArith Lia.

Lemma c_string_is : forall mem k, holds_text mem k -> c_string mem = k.
Proof.
  intros mem k [H (rest & ->)]. induction k as [|b k IH]; cbn [app c_string]; [reflexivity|].
  destruct (b =? 0) eqn:E; [apply N.eqb_eq in E; subst; elim H; now left|]. rewrite IH; [reflexivity|]. intros X. apply H. now right.
Qed.
Lemma as_signed_tells : forall n, tells (Some n) (as_signed n).
Proof.
  intros n. unfold as_signed. destruct (n <? 2 ^ 63) eqn:E; [left|right].
  - exists n. apply N.ltb_lt in E. auto.
  - apply N.ltb_ge in E. split; [reflexivity|]. intros k [= <-]. exact E.
Qed.
Lemma none_tells : tells None (-1).
Proof. right. split; [reflexivity|discriminate]. Qed.

(** * Escaping *)
Fixpoint esc (b : bytes) : bytes := match b with [] => [] | x :: b => if x =? 0 then 92 :: 48 :: esc b else x :: esc b end.
Lemma esc_escapes b : escapes b (esc b).
Proof. induction b as [|x b IH]; cbn [esc]; [constructor|]. destruct (x =? 0) eqn:E; [apply N.eqb_eq in E; subst; now constructor|]. apply N.eqb_neq in E. now constructor. Qed.
Lemma escapes_nonul b l : escapes b l -> ~ In 0 l.
Proof. induction 1 as [|b l H IH|x b l Hx H IH]; cbn; [tauto| |]; intros C; [destruct C as [C|[C|C]]; try discriminate C; auto|destruct C as [C|C]; auto]. Qed.
Lemma store_at done x rest b : store (done ++ x :: rest) (length done) b = Some (done ++ b :: rest).
Proof. induction done as [|d done IH]; cbn [app length store]; [reflexivity|]. rewrite IH. reflexivity. Qed.
Lemma copy_is src : forall done rest, (length (esc src) <= length rest)%nat ->
  exists rest', copy_escaped src (done ++ rest) (length done) = Some (done ++ esc src ++ rest', length done + length (esc src))%nat /\ (length rest' = length rest - length (esc src))%nat.
Proof.
  induction src as [|x src IH]; intros done rest L; cbn [copy_escaped esc] in *.
  - exists rest. cbn [app length]. split; [|lia]. f_equal. f_equal. lia.
  - destruct (x =? 0) eqn:E; cbn [length] in L.
    + destruct rest as [|r1 [|r2 rest]]; cbn [length] in L; try lia. rewrite store_at. change (done ++ 92 :: r2 :: rest) with (done ++ [92] ++ r2 :: rest).
      rewrite app_assoc. replace (length done + 1)%nat with (length (done ++ [92%N])) by (rewrite app_length; reflexivity). rewrite store_at.
      replace ((done ++ [92]) ++ 48 :: rest) with ((done ++ [92; 48]) ++ rest) by (rewrite <- !app_assoc; reflexivity).
      replace (length (done ++ [92%N]) + 1)%nat with (length (done ++ [92%N; 48%N])) by (rewrite !app_length; cbn; lia).
      destruct (IH (done ++ [92; 48]) rest ltac:(lia)) as (rest' & -> & L2). exists rest'. split; [|cbn [length]; lia].
      f_equal. f_equal; [rewrite <- !app_assoc; reflexivity|rewrite app_length; cbn [length]; lia].
    + destruct rest as [|r1 rest]; cbn [length] in L; try lia. rewrite store_at.
      replace (done ++ x :: rest) with ((done ++ [x]) ++ rest) by (rewrite <- app_assoc; reflexivity).
      replace (length done + 1)%nat with (length (done ++ [x])) by (rewrite app_length; reflexivity).
      destruct (IH (done ++ [x]) rest ltac:(lia)) as (rest' & -> & L2). exists rest'. split; [|cbn [length]; lia].
      f_equal. f_equal; [rewrite <- !app_assoc; reflexivity|rewrite app_length; cbn [length]; lia].
Qed.
Definition nuls (src : bytes) (n : nat) : nat := fold_left (fun n (b : N) => if b =? 0 then S n else n) src n.
Lemma count_shift src : forall n, nuls src n = Nat.add n (nuls src 0%nat).
Proof. unfold nuls. induction src as [|x src IH]; intros n; cbn [fold_left]; [lia|]. destruct (x =? 0); [rewrite IH, (IH 1%nat)|rewrite IH]; lia. Qed.
Lemma escaped_size_is src : escaped_size src = S (length (esc src)).
Proof.
  change (escaped_size src) with (Nat.add (length src) (nuls src 1%nat)). rewrite count_shift. induction src as [|x src IH]; [reflexivity|].
  unfold nuls in *. cbn [fold_left length esc]. destruct (x =? 0); cbn [length]; [|lia].
  change (fold_left _ src 1%nat) with (nuls src 1%nat). rewrite count_shift. unfold nuls. lia.
Qed.
Lemma strdup_is mem src : length mem = escaped_size src -> exists l, bstr_util_strdup_to_c mem src = Some (l ++ [0]) /\ escapes src l /\ ~ In 0 l.
Proof.
  rewrite escaped_size_is. intros L. destruct (copy_is src [] mem ltac:(lia)) as (rest & H & L2). cbn [app length] in H.
  exists (esc src). unfold bstr_util_strdup_to_c. rewrite H. cbn [Nat.add]. destruct rest as [|r [|r2 rest]]; cbn [length] in L2; try lia.
  rewrite store_at. split; [reflexivity|]. split; [apply esc_escapes|]. apply (escapes_nonul src), esc_escapes.
Qed.

(** * Comparing *)
Lemma lex_eq a : forall b, lex_cmp a b = Eq <-> a = b.
Proof.
  induction a as [|x a IH]; intros [|y b]; cbn [lex_cmp]; split; intros H; try discriminate H; try reflexivity.
  - destruct (x ?= y) eqn:E; try discriminate H. apply N.compare_eq in E. apply IH in H. congruence.
  - injection H as -> ->. rewrite N.compare_refl. now apply IH.
Qed.
Lemma lex_lt a : forall b, lex_cmp a b = Lt <-> precedes a b.
Proof.
  induction a as [|x a IH]; intros [|y b]; cbn [lex_cmp]; split; intros H; try discriminate H.
  - destruct H as [(z & r & H)|(p & z & w & r & q & H & _)]; [discriminate H|destruct p; discriminate H].
  - left. exists y, b. reflexivity.
  - reflexivity.
  - exfalso. destruct H as [(z & r & H)|(p & z & w & r & q & _ & H & _)]; [discriminate H|destruct p; discriminate H].
  - destruct (x ?= y) eqn:E; try discriminate H.
    + apply N.compare_eq in E. subst y. apply IH in H as [(z & r & ->)|(p & z & w & r & q & -> & -> & L)]; [left; exists z, r; reflexivity|].
      right. exists (x :: p), z, w, r, q. auto.
    + apply N.compare_lt_iff in E. right. exists [], x, y, a, b. auto.
  - destruct H as [(z & r & H)|(p & z & w & r & q & H1 & H2 & L)].
    + injection H as -> ->. rewrite N.compare_refl. apply IH. left. eauto.
    + destruct p as [|u p]; cbn [app] in *.
      * injection H1 as -> ->. injection H2 as -> ->. apply N.compare_lt_iff in L. rewrite L. reflexivity.
      * injection H1 as -> ->. injection H2 as -> ->. rewrite N.compare_refl. apply IH. right. exists p, z, w, r, q. auto.
Qed.
Lemma lex_anti a : forall b, lex_cmp b a = CompOpp (lex_cmp a b).
Proof. induction a as [|x a IH]; intros [|y b]; cbn [lex_cmp]; try reflexivity. rewrite N.compare_antisym. destruct (x ?= y); cbn [CompOpp]; auto. Qed.
Lemma cmp_c_is b mem k : holds_text mem k ->
  (bstr_cmp_c b mem = 0%Z <-> b = k) /\ (bstr_cmp_c b mem = (-1)%Z <-> precedes b k) /\ (bstr_cmp_c b mem = 1%Z <-> precedes k b) /\ bstr_dup_c mem = k.
Proof.
  intros H. unfold bstr_cmp_c, bstr_dup_c. rewrite (c_string_is _ _ H), <- lex_eq, <- !lex_lt, (lex_anti b k).
  destruct (lex_cmp b k); cbn; repeat split; intros; try reflexivity; discriminate.
Qed.

(** * Headers *)
Lemma nth_all {A} (l : list A) : map (fun i => nth_error l (N.to_nat (N.of_nat i))) (seq 0 (length l)) = map Some l.
Proof.
  rewrite (map_ext _ (fun i => nth_error l i)) by (intros; now rewrite Nat2N.id).
  induction l as [|x l IH]; [reflexivity|]. cbn [length seq map nth_error]. f_equal. rewrite <- seq_shift, map_map. exact IH.
Qed.
Lemma nth_beyond {A} (l : list A) i : N.of_nat (length l) <= i -> nth_error l (N.to_nat i) = None.
Proof. intros H. apply nth_error_None. lia. Qed.
Lemma flags_fold hs : forall f n, N.testbit (fold_left (fun f h => N.lor f (hd_flags h)) hs f) n = true <-> N.testbit f n = true \/ exists h, In h hs /\ N.testbit (hd_flags h) n = true.
Proof.
  induction hs as [|h hs IH]; intros f n; cbn [fold_left].
  - split; [auto|]. intros [H|(h & [] & _)]. exact H.
  - rewrite IH, N.lor_spec, Bool.orb_true_iff. split.
    + intros [[H|H]|(x & H1 & H2)]; [now left|right; exists h; cbn; auto|right; exists x; cbn; auto].
    + intros [H|(x & [<-|H1] & H2)]; [auto|auto|right; eauto].
Qed.
Lemma flags_are hs n : N.testbit (htp_headers_flags (Some hs)) n = true <-> exists h, In h hs /\ N.testbit (hd_flags h) n = true.
Proof. cbn [htp_headers_flags field]. rewrite flags_fold, N.bits_0. split; [intros [H|H]; [discriminate H|exact H]|auto]. Qed.

(** * Logs *)
Lemma ask_all l : forall s, rev (s_logs s) = l -> ask_logs (length l) s = (map Some l, set_s_logs [] s).
Proof.
  induction l as [|m l IH]; intros s H; cbn [length ask_logs map].
  - apply (f_equal (@rev _)) in H. rewrite rev_involutive in H. cbn in H. destruct s; cbn in *; subst; reflexivity.
  - unfold htp_conn_next_log. rewrite H. rewrite IH by (cbn; now rewrite rev_involutive). destruct s; reflexivity.
Qed.
Lemma logs_drained s : ask_logs (length (s_logs s)) s = (map Some (rev (s_logs s)), set_s_logs [] s) /\
  htp_conn_next_log (set_s_logs [] s) = (None, set_s_logs [] s).
Proof. split; [|reflexivity]. rewrite <- (rev_length (s_logs s)). now apply ask_all. Qed.

(** * Sessions *)
Lemma op_of_valid c : valid_op (op_of c).
Proof. destruct c as [|sd [mem|] len| | |i]; try exact I; destruct sd; cbn; try reflexivity; unfold chunk_from; destruct (0 <? len); reflexivity. Qed.
Lemma ops_of_valid l : Forall valid_op (map op_of l).
Proof. apply Forall_forall. intros o H. apply in_map_iff in H as (c & <- & _). apply op_of_valid. Qed.
Lemma session_returns e l : exists r s, history e (map op_of l) = (ROk r, s).
Proof. destruct (history_ok e _ (ops_of_valid l)) as (r & s & H & _). exists r, s. exact H. Qed.
Lemma handed_size sd l : Forall readable l -> forall n, fold_left (last_size1 sd) (map op_of l) n = fold_left (handed1 sd) l n.
Proof.
  induction 1 as [|c l H _ IH]; intros n; cbn [map fold_left]; [reflexivity|]. rewrite IH. f_equal.
  destruct c as [|sd' data len| | |i]; try reflexivity.
  assert (E : chunk_size (chunk_from data len) = len).
  { destruct data as [mem|]; cbn [chunk_from].
    - cbn. unfold blen in *. rewrite firstn_length. cbn [readable] in H. unfold blen in H. lia.
    - destruct (0 <? len) eqn:Z; [reflexivity|]. apply N.ltb_ge in Z. cbn. lia. }
  destruct sd, sd'; cbn; try reflexivity; exact E.
Qed.
Lemma c_consumed e l sd : Forall readable l -> handed sd l < 2 ^ 63 ->
  htp_connp_data_consumed sd (Some (snd (history e (map op_of l)))) = Z.of_N (d_consumed (s_dir sd (snd (history e (map op_of l))))) /\
  (0 <= htp_connp_data_consumed sd (Some (snd (history e (map op_of l)))) <= Z.of_N (handed sd l))%Z.
Proof.
  intros R B. assert (C : d_consumed (s_dir sd (snd (history e (map op_of l)))) <= handed sd l).
  { unfold handed. rewrite <- (handed_size sd l R). destruct (history_ok e _ (ops_of_valid l)) as (r & s & -> & _ & _ & A & A'). destruct sd; [exact A|exact A']. }
  cbn [htp_connp_data_consumed field]. unfold as_signed. destruct (_ <? 2 ^ 63) eqn:E; [|apply N.ltb_ge in E; lia]. split; [reflexivity|lia].
Qed.
Lemma tx_is s i t : htp_connp_tx (Some s) i = Some t <-> tx_get i (s_txs s) = Some t /\ (t_prog (x_req t) <> PNotStarted \/ t_prog (x_resp t) <> PNotStarted).
Proof.
  cbn [htp_connp_tx field]. destruct (tx_get i (s_txs s)) as [u|]; [|split; [discriminate|intros [H _]; discriminate H]].
  destruct (is_started u) eqn:E; split; intros H.
  - injection H as ->. split; [reflexivity|]. unfold is_started in E. destruct (t_prog (x_req t)), (t_prog (x_resp t)); cbn in E; try discriminate E; (left; discriminate) || (right; discriminate).
  - now destruct H as [-> _].
  - discriminate H.
  - destruct H as [[= ->] H]. exfalso. unfold is_started in E. destruct (t_prog (x_req t)), (t_prog (x_resp t)); cbn in E; try discriminate E; destruct H; congruence.
Qed.

(** * Enumerating the transactions *)
Lemma started_iff t : is_started t = true <-> t_prog (x_req t) <> PNotStarted \/ t_prog (x_resp t) <> PNotStarted.
Proof. unfold is_started. destruct (t_prog (x_req t)), (t_prog (x_resp t)); cbn; split; intros H; try reflexivity; try discriminate H; try (left; discriminate); try (right; discriminate); destruct H; congruence. Qed.
Lemma enumerated e l i : accepting e -> c_auto_destroy (e_cfg e) = false -> c_max_tx (e_cfg e) < 2 ^ 63 -> Forall (fun o => forall i, o <> OpRemove i) l ->
  let s := snd (history e l) in tx_size s < 2 ^ 63 /\ (htp_connp_tx (Some s) i <> None <-> i < tx_size s).
Proof.
  intros Acc Keep Cap Hl s. assert (Cap' : c_max_tx (e_cfg e) < 2 ^ 64) by lia.
  destruct (history_once e Acc Keep Cap' l Hl) as [P _ _ _ _]. fold s in P. clearbody s. destruct P as [A B C D F].
  assert (Sz : forall t, tx_get (N.max (s_ridx s) (s_pidx s)) (s_txs s) = Some t -> N.max (s_ridx s) (s_pidx s) + 1 <= c_max_tx (e_cfg e)).
  { intros t T. etransitivity; [|exact C]. apply pigeon. intros j Hj. destruct (N.eq_dec j (N.max (s_ridx s) (s_pidx s))) as [->|Q]; [unfold live; congruence|apply A; lia]. }
  assert (Mx : N.max (s_ridx s) (s_pidx s) <= c_max_tx (e_cfg e)).
  { etransitivity; [|exact C]. apply pigeon. intros j Hj. apply A; lia. }
  assert (E : tx_size s = match tx_get (N.max (s_ridx s) (s_pidx s)) (s_txs s) with Some t => N.max (s_ridx s) (s_pidx s) + (if is_started t then 1 else 0) | None => N.max (s_ridx s) (s_pidx s) end).
  { unfold tx_size. destruct (tx_get (N.max _ _) _) as [t|] eqn:T; [|reflexivity]. specialize (Sz t eq_refl). unfold wadd. apply N.mod_small. unfold u64_mod. destruct (is_started t); lia. }
  assert (Old : forall j, j < N.max (s_ridx s) (s_pidx s) -> htp_connp_tx (Some s) j <> None).
  { intros j Hj. cbn [htp_connp_tx field]. pose proof (A j ltac:(lia)) as L. unfold live in L. destruct (tx_get j (s_txs s)) as [t|] eqn:T; [|congruence].
    replace (is_started t) with true; [discriminate|]. symmetry. apply started_iff. destruct (N.lt_ge_cases j (s_pidx s)) as [H|H]; [right; exact (F j t H T)|left; apply (B j t); [lia|exact T]]. }
  assert (New : forall j, N.max (s_ridx s) (s_pidx s) < j -> htp_connp_tx (Some s) j = None).
  { intros j Hj. cbn [htp_connp_tx field]. destruct (tx_get j (s_txs s)) as [t|] eqn:T; [|reflexivity]. pose proof (D j) as L. unfold live in L. rewrite T in L. specialize (L ltac:(discriminate)). lia. }
  rewrite E. destruct (tx_get (N.max (s_ridx s) (s_pidx s)) (s_txs s)) as [t|] eqn:T.
  - specialize (Sz t eq_refl). split; [destruct (is_started t); lia|].
    destruct (N.lt_trichotomy i (N.max (s_ridx s) (s_pidx s))) as [H|[H|H]].
    + split; intros _; [destruct (is_started t); lia|now apply Old].
    + subst i. cbn [htp_connp_tx field]. rewrite T. destruct (is_started t); split; intros H; try discriminate; try lia; congruence.
    + rewrite (New i H). split; [congruence|]. destruct (is_started t); lia.
  - split; [lia|]. destruct (N.lt_trichotomy i (N.max (s_ridx s) (s_pidx s))) as [H|[H|H]].
    + split; intros _; [lia|now apply Old].
    + subst i. cbn [htp_connp_tx field]. rewrite T. split; [congruence|lia].
    + rewrite (New i H). split; [congruence|lia].
Qed.

Lemma c_enumerated e l i : accepting e -> c_auto_destroy (e_cfg e) = false -> c_max_tx (e_cfg e) < 2 ^ 63 -> Forall keeps_all l ->
  let s := snd (history e (map op_of l)) in htp_connp_tx (Some s) i <> None <-> (Z.of_N i < htp_connp_tx_size (Some s))%Z.
Proof.
  intros Acc Keep Cap H s. assert (Hl : Forall (fun o => forall i, o <> OpRemove i) (map op_of l)).
  { clear s. induction H as [|c l Hc _ IH]; cbn [map]; constructor; [|exact IH]. destruct c as [|[] [] ?| | |]; cbn in *; try discriminate; tauto. }
  destruct (enumerated e (map op_of l) i Acc Keep Cap Hl) as [B E]. fold s in B, E. rewrite E. cbn [htp_connp_tx_size field]. unfold as_signed.
  apply N.ltb_lt in B. rewrite B. lia.
Qed.
(** * Comparing without regard to letter case *)
Lemma cmp_c_nocase_is b mem k b' k' : holds_text mem k -> fold_of b b' -> fold_of k k' ->
  (bstr_cmp_c_nocase b mem = 0%Z <-> name_eq b k) /\ (bstr_cmp_c_nocase b mem = (-1)%Z <-> precedes b' k') /\ (bstr_cmp_c_nocase b mem = 1%Z <-> precedes k' b').
Proof.
  intros H F G. unfold bstr_cmp_c_nocase. rewrite (c_string_is _ _ H). destruct (cmp_text b k b' k' F G) as (A & B & C). rewrite <- A, <- B, <- C.
  destruct (cmp_nocase b k); cbn; repeat split; intros; try reflexivity; discriminate.
Qed.
Lemma header_is t sd mem k : holds_text mem k ->
  (forall h, htp_tx_header sd (Some t) (Some mem) = Some h <-> first_such (fun x => hkey_matches (hd_name x) k) (t_headers (x_dir sd t)) h) /\
  (htp_tx_header sd (Some t) (Some mem) = None <-> Forall (fun x => ~ hkey_matches (hd_name x) k) (t_headers (x_dir sd t))).
Proof. intros H. cbn [htp_tx_header field htp_headers_get]. rewrite (c_string_is _ _ H). apply header_lookup_first_match. Qed.
Lemma header_index_is t sd : 
  map (fun i => htp_tx_header_index sd (Some t) (N.of_nat i)) (seq 0 (length (t_headers (x_dir sd t)))) = map Some (t_headers (x_dir sd t)) /\
  (forall i, N.of_nat (length (t_headers (x_dir sd t))) <= i -> htp_tx_header_index sd (Some t) i = None) /\
  tells (Some (N.of_nat (length (t_headers (x_dir sd t))))) (htp_tx_headers_size sd (Some t)).
Proof. split; [apply nth_all|]. split; [intros i; apply nth_beyond|apply as_signed_tells]. Qed.
Lemma numbers_are t sd : tells (t_clen (x_dir sd t)) (htp_tx_content_length sd (Some t)) /\ tells (Some (t_mlen (x_dir sd t))) (htp_tx_message_len sd (Some t)) /\
  tells (Some (t_elen (x_dir sd t))) (htp_tx_entity_len sd (Some t)).
Proof.
  repeat split; try apply as_signed_tells. cbn [htp_tx_content_length field]. destruct (t_clen (x_dir sd t)); cbn [field]; [apply as_signed_tells|apply none_tells].
Qed.
