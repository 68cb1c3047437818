(** What well-formed header lines make of a request: the table, the framing and everything the parser looks up. *)
From Verif Require Import Base Spec SpecTx SpecMsg ModelUtil ModelBstr ModelParsers ModelHeaders ModelState ModelTx ProofsBase ProofsBstr ProofsParsers ProofsHeaders ProofsTx ProofsHead.

(** * Names *)
Lemma uni_space_head w : uni_space w -> exists x m, w = x :: m /\ ~ token_byte x.
Proof.
  intro H. assert (Z : forall x, token_byte x -> 33 <= x <= 126) by (intros x Hx; apply token_not in Hx; lia).
  destruct H; eexists _, _; (split; [reflexivity|]); intro T; apply Z in T; unfold ascii_space in *; lia.
Qed.
Lemma uni_space_last w : uni_space w -> exists x m, w = m ++ [x] /\ ~ token_byte x.
Proof.
  intro H. assert (Z : forall x, token_byte x -> 33 <= x <= 126) by (intros x Hx; apply token_not in Hx; lia).
  destruct H; (eexists _, _; split; [first [exact (eq_refl ([] ++ [_])) | exact (eq_refl ([_] ++ [_])) | exact (eq_refl ([_; _] ++ [_]))]|]); intro T; apply Z in T; unfold ascii_space in *; lia.
Qed.
Lemma token_nonul n : Forall token_byte n -> nonul n = n.
Proof.
  induction 1 as [|x n Hx _ IH]; [reflexivity|]. apply token_not in Hx. unfold nonul in *. cbn [filter]. destruct (x =? 0) eqn:E; [lia|]. cbn [negb]. now rewrite IH.
Qed.
Lemma hkey_token n k : Forall token_byte n -> hkey_matches n k <-> name_eq n k.
Proof.
  intro T. unfold hkey_matches. split.
  - intros (t & (a & b & E & Ha & Hb & _ & _) & Hn). assert (a = []).
    { destruct a as [|w a]; [reflexivity|]. exfalso. inversion_clear Ha as [|? ? Hw _]. destruct (uni_space_head _ Hw) as (x & m & -> & Nx). subst n. inversion_clear T. contradiction. }
    assert (b = []).
    { destruct b as [|w b] using rev_ind; [reflexivity|]. exfalso. apply Forall_app in Hb as [_ Hw]. inversion_clear Hw as [|? ? Hw' _]. destruct (uni_space_last _ Hw') as (x & m & -> & Nx).
      subst n. rewrite Forall_forall in T. apply Nx, T. rewrite concat_app. cbn [concat]. apply in_or_app; right; apply in_or_app; right; apply in_or_app; right. rewrite app_nil_r. apply in_or_app. right. now left. }
    subst a b. cbn [concat app] in E. rewrite app_nil_r in E. subst n. now rewrite token_nonul in Hn.
  - intro H. exists n. split; [|now rewrite token_nonul].
    exists [], []. cbn [concat app]. rewrite app_nil_r. split; [reflexivity|]. split; [constructor|]. split; [constructor|]. split; intros w m' Hw ->.
    + destruct (uni_space_head _ Hw) as (x & m & -> & Nx). inversion_clear T. contradiction.
    + destruct (uni_space_last _ Hw) as (x & m & -> & Nx). rewrite Forall_forall in T. apply Nx, T. apply in_or_app. right. apply in_or_app. right. now left.
Qed.
Lemma token_tight n : Forall token_byte n -> tight n.
Proof.
  intro T. rewrite Forall_forall in T. split; intros x m E; assert (I : In x n) by (rewrite E; first [now left | apply in_or_app; right; now left]); apply T, token_not in I; unfold ascii_space; lia.
Qed.

(** * The merged table *)
Section Lookup.
Variable P : hline2 -> Prop.
Hypothesis P_class : forall x y, same x y = true -> P x -> P y.
Lemma same_refl' x : same x x = true. Proof. now apply same_iff. Qed.
Lemma same_sym' x y : same x y = true -> same y x = true. Proof. rewrite !same_iff. congruence. Qed.
Lemma leaders_skip l : forall k, Forall (fun x => ~ P x) l -> Forall (fun x => ~ P x) k -> Forall (fun x => ~ P x) (fold_left leader l k).
Proof using. induction l as [|x l IH]; intros k Hl Hk; [exact Hk|]. inversion_clear Hl. cbn [fold_left]. apply IH; [assumption|]. unfold leader. destruct (existsb _ _); [exact Hk|]. apply Forall_app. split; [exact Hk|now constructor]. Qed.
Lemma leaders_grow l : forall k, exists m, fold_left leader l k = k ++ m.
Proof using.
  induction l as [|x l IH]; intro k; [exists []; symmetry; apply app_nil_r|]. cbn [fold_left]. destruct (IH (leader k x)) as [m ->]. unfold leader. destruct (existsb _ _); [now exists m|].
  exists (x :: m). now rewrite <- app_assoc.
Qed.
Lemma leaders_first l x : first_such P l x -> first_such P (leaders l) x.
Proof using P_class.
  intros (b & a & -> & Hx & Hb). unfold leaders. rewrite fold_left_app. cbn [fold_left].
  assert (Hk : Forall (fun y => ~ P y) (fold_left leader b [])) by (apply leaders_skip; [exact Hb|constructor]).
  set (k := fold_left leader b []) in *. clearbody k. replace (leader k x) with (k ++ [x]).
  - destruct (leaders_grow a (k ++ [x])) as [m ->]. exists k, m. rewrite <- app_assoc. repeat split; assumption.
  - unfold leader. replace (existsb (same x) k) with false; [reflexivity|]. symmetry. apply Bool.not_true_is_false. intro E. apply existsb_exists in E as (y & Hy & Es).
    rewrite Forall_forall in Hk. apply (Hk y Hy). now apply (P_class x).
Qed.
Lemma leaders_none l : Forall (fun x => ~ P x) l -> Forall (fun x => ~ P x) (leaders l).
Proof using. intro H. apply leaders_skip; [exact H|constructor]. Qed.
Lemma keep_skip l : forall k, Forall (fun x => ~ P x) l -> Forall (fun x => ~ P x) k -> Forall (fun x => ~ P x) (fold_left keep l k).
Proof using. induction l as [|x l IH]; intros k Hl Hk; [exact Hk|]. inversion_clear Hl. cbn [fold_left]. apply IH; [assumption|]. unfold keep. destruct (_ || _); [|exact Hk]. apply Forall_app. split; [exact Hk|now constructor]. Qed.
Lemma keep_grow l : forall k, exists m, fold_left keep l k = k ++ m.
Proof using.
  induction l as [|x l IH]; intro k; [exists []; symmetry; apply app_nil_r|]. cbn [fold_left]. destruct (IH (keep k x)) as [m ->]. unfold keep. destruct (_ || _); [|now exists m].
  exists (x :: m). now rewrite <- app_assoc.
Qed.
Lemma filter_none x k : P x -> Forall (fun y => ~ P y) k -> filter (same x) k = [].
Proof using P_class.
  intros Hx. induction 1 as [|y k Hy _ IH]; [reflexivity|]. cbn [filter]. destruct (same x y) eqn:E; [|exact IH]. exfalso. apply Hy. now apply (P_class x).
Qed.
Lemma kept_first l x : first_such P l x -> exists m, filter (same x) (kept l) = x :: m.
Proof using P_class.
  intros (b & a & -> & Hx & Hb). unfold kept. rewrite fold_left_app. cbn [fold_left].
  assert (Hk : Forall (fun y => ~ P y) (fold_left keep b [])) by (apply keep_skip; [exact Hb|constructor]).
  set (k := fold_left keep b []) in *. clearbody k. replace (keep k x) with (k ++ [x]).
  - destruct (keep_grow a (k ++ [x])) as [m ->]. rewrite !filter_app, (filter_none x k Hx Hk). cbn [app filter]. rewrite same_refl'. exists (filter (same x) m). reflexivity.
  - unfold keep, uses. rewrite (filter_none x k Hx Hk). reflexivity.
Qed.
Lemma kept_only b x a : P x -> Forall (fun y => ~ P y) b -> Forall (fun y => ~ P y) a -> filter (same x) (kept (b ++ x :: a)) = [x].
Proof using P_class.
  intros Hx Hb Ha. unfold kept. rewrite fold_left_app. cbn [fold_left].
  assert (Hk : Forall (fun y => ~ P y) (fold_left keep b [])) by (apply keep_skip; [exact Hb|constructor]).
  set (k := fold_left keep b []) in *. clearbody k. replace (keep k x) with (k ++ [x]) by (unfold keep, uses; now rewrite (filter_none x k Hx Hk)).
  assert (Z : forall l k', Forall (fun y => ~ P y) l -> filter (same x) (fold_left keep l k') = filter (same x) k').
  { clear - P_class Hx. induction l as [|y l IH]; intros k' Hl; [reflexivity|]. inversion_clear Hl. cbn [fold_left]. rewrite IH by assumption. unfold keep. destruct (_ || _); [|reflexivity].
    rewrite filter_app, (filter_none x [y] Hx) by (constructor; [assumption|constructor]). apply app_nil_r. }
  rewrite Z by exact Ha. rewrite filter_app, (filter_none x k Hx Hk). cbn [app filter]. now rewrite same_refl'.
Qed.
End Lookup.
Lemma join_first sep v vs : exists w, join sep (v :: vs) = v ++ w.
Proof. destruct vs; cbn [join]; [exists []; symmetry; apply app_nil_r|eexists; reflexivity]. Qed.
Lemma first_such_map {A B} (f : A -> B) (P : B -> Prop) l x : first_such (fun y => P (f y)) l x -> first_such P (map f l) (f x).
Proof.
  intros (b & a & -> & Hx & Hb). exists (map f b), (map f a). rewrite map_app. split; [reflexivity|]. split; [exact Hx|].
  apply Forall_forall. intros y Hy. apply in_map_iff in Hy as (z & <- & Hz). rewrite Forall_forall in Hb. now apply Hb.
Qed.
Lemma first_such_view {A B} (f : A -> B) (P : B -> Prop) l y : first_such P (map f l) y -> exists x, first_such (fun z => P (f z)) l x /\ f x = y.
Proof.
  intros (b & a & E & Hx & Hb). apply map_eq_app in E as (l1 & l2 & -> & E1 & E2). destruct l2 as [|x l2]; [discriminate|]. injection E2 as E2 E3. exists x. split; [|exact E2].
  exists l1, l2. split; [reflexivity|]. split; [now rewrite E2|]. apply Forall_forall. intros z Hz. rewrite Forall_forall in Hb. apply Hb. rewrite <- E1. now apply in_map.
Qed.
Section Table.
Variables (ls : list hline) (hs : headers_tab).
Hypothesis G : Forall good_hline ls.
Hypothesis T : map view hs = merged_table (map kv_of ls).
Lemma leaders_in l x : In x (leaders l) -> In x l.
Proof.
  unfold leaders. assert (Z : forall l k, In x (fold_left leader l k) -> In x k \/ In x l).
  { clear. induction l as [|y l IH]; intros k H; [now left|]. cbn [fold_left] in H. apply IH in H as [H|H]; [|right; now right]. unfold leader in H. destruct (existsb _ _); [now left|].
    apply in_app_or in H as [H | [<- | []]]; [now left|right; now left]. }
  intro H. apply Z in H as [[]|H]. exact H.
Qed.
Lemma table_token : Forall (fun h => Forall token_byte (hd_name h)) hs.
Proof using G T.
  apply Forall_forall. intros h Hh. apply (in_map view) in Hh. rewrite T in Hh. apply in_map_iff in Hh as (x & E & Hx). apply leaders_in in Hx. apply in_map_iff in Hx as (l & <- & Hl).
  unfold entry, view in E. injection E as E _ _. rewrite <- E. rewrite Forall_forall in G. apply (G l Hl).
Qed.
Lemma table_lacks k : no_line k ls -> lacks hs (s2b k).
Proof using G T.
  intro H. apply Forall_forall. intros h Hh. pose proof table_token as Tk. rewrite Forall_forall in Tk. rewrite (hkey_token _ _ (Tk h Hh)).
  apply (in_map view) in Hh. rewrite T in Hh. apply in_map_iff in Hh as (x & E & Hx). apply leaders_in in Hx. apply in_map_iff in Hx as (l & <- & Hl).
  unfold entry, view in E. injection E as E _ _. rewrite <- E. unfold no_line in H. rewrite Forall_forall in H. now apply H.
Qed.
Lemma first_such_weaken {A} (P Q : A -> Prop) l x : (forall y, In y l -> (P y <-> Q y)) -> first_such P l x -> first_such Q l x.
Proof.
  intros H (b & a & -> & Hx & Hb). exists b, a. split; [reflexivity|]. split; [apply H; [apply in_or_app; right; now left|exact Hx]|].
  apply Forall_forall. intros y Hy. rewrite Forall_forall in Hb. rewrite <- H; [now apply Hb|apply in_or_app; now left].
Qed.
Lemma table_first k l : first_line k ls l -> exists h, the_header hs (s2b k) h /\ (exists w, hd_value h = hl_value l ++ w) /\ (k = "content-length"%string -> hd_value h = hl_value l).
Proof using G T.
  intro H. set (P := fun x : hline2 => name_eq (fst x) (s2b k)).
  assert (Pc : forall x y, same x y = true -> P x -> P y).
  { intros x y S Hx. unfold P in *. apply same_iff in S. rewrite name_eq_lowers in *. congruence. }
  assert (H1 : first_such P (map kv_of ls) (kv_of l)) by (apply (first_such_map kv_of P); exact H).
  pose proof (leaders_first P Pc _ _ H1) as H2. destruct (kept_first P Pc _ _ H1) as [m Em].
  set (Q := fun v : bytes * bytes * bool => name_eq (fst (fst v)) (s2b k)).
  assert (H3 : first_such Q (merged_table (map kv_of ls)) (entry (kept (map kv_of ls)) (kv_of l))) by (apply (first_such_map (entry _) Q); exact H2).
  rewrite <- T in H3. apply first_such_view in H3 as (h & H3 & Ev). exists h. split; [|split].
  - revert H3. apply first_such_weaken. intros y Hy. pose proof table_token as Tk. rewrite Forall_forall in Tk. rewrite (hkey_token _ _ (Tk y Hy)). reflexivity.
  - unfold view, entry in Ev. rewrite Em in Ev. cbn [map] in Ev. injection Ev as _ Ev _. destruct (same _ _); cbn [hd] in Ev.
    + exists []. rewrite app_nil_r. exact Ev.
    + destruct (join_first (s2b ", ") (snd (kv_of l)) (map snd m)) as [w E]. exists w. rewrite Ev. exact E.
  - intros ->. assert (S : same (kv_of l) (s2b "content-length", []) = true).
    2: { unfold view, entry in Ev. rewrite S, Em in Ev. injection Ev as _ Ev _. exact Ev. }
    apply same_iff. apply name_eq_lowers. destruct H as (_ & _ & _ & Hn & _). exact Hn.
Qed.
Lemma table_only k l : only_line k ls l -> exists h, the_header hs (s2b k) h /\ hd_value h = hl_value l.
Proof using G T.
  intros (b & a & E & Hn & Hb & Ha). set (P := fun x : hline2 => name_eq (fst x) (s2b k)).
  assert (Pc : forall x y, same x y = true -> P x -> P y).
  { intros x y S Hx. unfold P in *. apply same_iff in S. rewrite name_eq_lowers in *. congruence. }
  assert (Fm : forall l', no_line k l' -> Forall (fun y => ~ P y) (map kv_of l')) by (intros l' H; apply Forall_map; exact H).
  assert (H1 : first_such P (map kv_of ls) (kv_of l)) by (exists (map kv_of b), (map kv_of a); rewrite E, map_app; repeat split; [exact Hn|now apply Fm]).
  pose proof (leaders_first P Pc _ _ H1) as H2. assert (Em : filter (same (kv_of l)) (kept (map kv_of ls)) = [kv_of l]).
  { rewrite E, map_app. exact (kept_only P Pc (map kv_of b) (kv_of l) (map kv_of a) Hn (Fm _ Hb) (Fm _ Ha)). }
  set (Q := fun v : bytes * bytes * bool => name_eq (fst (fst v)) (s2b k)).
  assert (H3 : first_such Q (merged_table (map kv_of ls)) (entry (kept (map kv_of ls)) (kv_of l))) by (apply (first_such_map (entry _) Q); exact H2).
  rewrite <- T in H3. apply first_such_view in H3 as (h & H3 & Ev). exists h. split.
  - revert H3. apply first_such_weaken. intros y Hy. pose proof table_token as Tk. rewrite Forall_forall in Tk. rewrite (hkey_token _ _ (Tk y Hy)). reflexivity.
  - unfold view, entry in Ev. rewrite Em in Ev. cbn [map hd join] in Ev. injection Ev as _ Ev _. now destruct (same _ _).
Qed.
End Table.
