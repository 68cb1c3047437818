(** Proofs for C68: the normalized URI. *)
From Verif Require Import Base Spec SpecDecode SpecNorm ModelUtil ModelBstr ModelUrl ModelUtf8 ModelUri ModelState ModelTx.
From Verif Require Import ProofsBase ProofsBstr ProofsParsers ProofsUrl ProofsDecode.

Lemma component_ok cfg o flags : exists r fl, component cfg o r fl /\ normalized_component cfg o flags = (r, N.lor flags (all_flags (component_flags fl))).
Proof.
  destruct o as [s|]; cbn [normalized_component component].
  - destruct (param_reads_total cfg s) as (out & fl & cs & R). exists (Some out), fl. split; [exists out; split; [now exists cs|reflexivity]|].
    rewrite (component_decoded _ _ _ _ _ _ R). reflexivity.
  - exists None, []. split; [now split|]. cbn. now rewrite lor0r.
Qed.
Lemma host_ok cfg u flags : exists r fl, host_component cfg (u_hostname u) r fl /\ normalized_hostname cfg u flags = (r, N.lor flags (all_flags (component_flags fl))).
Proof.
  unfold normalized_hostname. destruct (u_hostname u) as [s|]; cbn [host_component].
  - destruct (param_reads_total cfg s) as (out & fl & cs & R). rewrite (component_decoded _ _ _ _ _ _ R). cbn [option_map].
    do 2 eexists. split; [|reflexivity]. exists out. eexists. split; [now exists cs|]. split; [|reflexivity].
    destruct (drop_while_end_spec (fun c => c =? 46) (lowers out)) as (b & E & B & L). exists b. split; [exact E|]. split.
    + eapply Forall_impl; [|exact B]. intros a Ha. now apply N.eqb_eq.
    + intros a Ha. now specialize (L 46 a Ha).
  - exists None, []. split; [now split|]. cbn. now rewrite lor0r.
Qed.
Lemma port_ok u flags : exists r fl, port_component (fun p n => convert_port p = Some n) (u_port u) r fl /\ normalized_port u flags = (r, N.lor flags fl).
Proof.
  unfold normalized_port. destruct (u_port u) as [p|]; cbn [port_component].
  - destruct (convert_port p) as [n|] eqn:C.
    + exists (Some n), 0. split; [left; now exists n|]. now rewrite lor0r.
    + exists None, HOSTU_INVALID. split; [|reflexivity]. right. now split.
  - exists None, 0. split; [now split|]. now rewrite lor0r.
Qed.
Lemma all_flags_app a b : all_flags (a ++ b) = N.lor (all_flags a) (all_flags b).
Proof. induction a as [|x a IH]; [reflexivity|]. cbn [all_flags app fold_right] in *. fold (all_flags (a ++ b)). unfold all_flags in *. now rewrite IH, N.lor_assoc. Qed.
Lemma path_ok cfg u flags st : exists r fl st', path_component cfg flags st (u_path u) r fl st' /\ normalized_path cfg u flags st = (r, N.lor flags fl, st').
Proof.
  unfold normalized_path. destruct (u_path u) as [p|]; cbn [path_component].
  - destruct (path_reads_total cfg p) as (out & fl & cs & R). unfold path_decode_uri_inplace. rewrite (path_decoded _ _ _ _ _ R).
    unfold decode_and_validate_inplace. set (text := if path_separators_compress cfg then squeezed out else out).
    destruct (decode_and_validate (bestfit cfg) text) as [chars uf] eqn:D.
    exists (Some (normalize_uri_path (if utf8_convert_bestfit cfg then chars else text))), (all_flags (fl ++ [uf])).
    eexists. split.
    + exists out, fl, cs, text, chars, uf. repeat (split; [first [assumption|reflexivity]|]). reflexivity.
    + rewrite all_flags_app. cbn [all_flags fold_right]. rewrite lor0r, N.lor_assoc. f_equal.
      unfold fset. rewrite <- raised_all. cbn [all_flags fold_right]. fold (all_flags (fl ++ [uf])). rewrite all_flags_app. cbn [all_flags fold_right].
      rewrite lor0r, N.lor_assoc. unfold is_ignore. fold (all_flags fl).
      destruct (fis_set _ PATH_UTF8_INVALID), (utf8_invalid_unwanted cfg); reflexivity.
  - exists None, 0, st. split; [now repeat split|]. now rewrite lor0r.
Qed.
Lemma normalized_parts cfg raw t : exists u fu fp fh fo ff fa before st,
  normalize_parsed_uri cfg raw t = set_x_expected st (set_x_flags (N.lor before fa) (set_x_parsed (Some u) t)) /\
  u_scheme u = option_map lowers (u_scheme raw) /\
  component cfg (u_username raw) (u_username u) fu /\ component cfg (u_password raw) (u_password u) fp /\
  host_component cfg (u_hostname raw) (u_hostname u) fh /\
  u_port u = None /\ port_component (fun p n => convert_port p = Some n) (u_port raw) (u_port_number u) fo /\
  component cfg (u_fragment raw) (u_fragment u) ff /\ u_query u = u_query raw /\
  before = all_flags (x_flags t :: component_flags fu ++ component_flags fp ++ component_flags fh ++ [fo] ++ component_flags ff) /\
  path_component cfg before (x_expected t) (u_path raw) (u_path u) fa st.
Proof.
  unfold normalize_parsed_uri, normalized_username, normalized_password, normalized_fragment.
  destruct (component_ok cfg (u_username raw) (x_flags t)) as (us & fu & Cu & ->). cbv beta iota zeta.
  match goal with |- context [normalized_component cfg (u_password raw) ?f] => destruct (component_ok cfg (u_password raw) f) as (pw & fp & Cp & ->) end. cbv beta iota zeta.
  match goal with |- context [normalized_hostname cfg raw ?f] => destruct (host_ok cfg raw f) as (ho & fh & Ch & ->) end. cbv beta iota zeta.
  match goal with |- context [normalized_port raw ?f] => destruct (port_ok raw f) as (po & fo & Co & ->) end. cbv beta iota zeta.
  match goal with |- context [normalized_component cfg (u_fragment raw) ?f] => destruct (component_ok cfg (u_fragment raw) f) as (fr & ff & Cf & ->) end. cbv beta iota zeta.
  match goal with |- context [normalized_path cfg raw ?f ?s] => destruct (path_ok cfg raw f s) as (pa & fa & st & Ca & ->); set (before := f) in * end. cbv beta iota zeta.
  eexists _, fu, fp, fh, fo, ff, fa, before, st. split; [reflexivity|]. cbn [u_scheme u_username u_password u_hostname u_port u_port_number u_fragment u_query u_path].
  repeat (split; [first [assumption|reflexivity]|]). split; [|exact Ca].
  subst before. rewrite !all_flags_app || idtac. change (all_flags (x_flags t :: ?l)) with (N.lor (x_flags t) (all_flags l)).
  rewrite !all_flags_app. change (all_flags [fo]) with (N.lor fo 0). rewrite lor0r, !N.lor_assoc. reflexivity.
Qed.
Lemma inplace_decoded cfg s : decoded_once cfg s (decode_uri_inplace cfg s).
Proof.
  destruct (param_reads_total cfg s) as (out & fl & cs & R). unfold decode_uri_inplace. rewrite (param_decoded _ _ _ _ _ R). exists fl. now exists cs.
Qed.
Lemma normalized_texts cfg u partial full n : generate_normalized_uri cfg u = (partial, full, n) ->
  exists s c h o p q f w1 w2, around [] (u_scheme u) (s2b "://") s /\ credentials_shown (u_username u) (u_password u) c /\
    around [] (u_hostname u) [] h /\ around [58] (u_port u) [] o /\ path_shown cfg (u_path u) p w1 /\ query_shown cfg (u_query u) q w2 /\
    around [35] (u_fragment u) [] f /\
    unless_empty (p ++ q ++ f) partial /\ unless_empty (s ++ c ++ h ++ o ++ p ++ q ++ f) full /\ n = (w1 + w2)%nat.
Proof.
  unfold generate_normalized_uri.
  set (pw := match u_path u with Some _ => _ | None => _ end). assert (P : path_shown cfg (u_path u) (fst pw) (snd pw)).
  { subst pw. unfold path_shown. destruct (u_path u) as [p|]; [|now split]. destruct (double_decode_normalized_path cfg); [|now split].
    cbn [fst snd]. split; [apply inplace_decoded|reflexivity]. }
  destruct pw as [p w1]. cbn [fst snd] in P.
  set (qw := match u_query u with Some _ => _ | None => _ end). assert (Q : query_shown cfg (u_query u) (fst qw) (snd qw)).
  { subst qw. unfold query_shown. destruct (u_query u) as [q|]; [|now split]. exists (decode_uri_inplace cfg q). split; [apply inplace_decoded|].
    destruct (double_decode_normalized_query cfg); [|now split].
    cbn [fst snd]. eexists. split; [apply inplace_decoded|now split]. }
  destruct qw as [q w2]. cbn [fst snd] in Q.
  set (s := opt_bytes [] (u_scheme u) _). set (c := match u_username u with Some _ => _ | None => _ end).
  set (h := get_bytes (u_hostname u)). set (o := opt_bytes [58] (u_port u) []). set (f := opt_bytes [35] (u_fragment u) []).
  intro E. injection E as E1 E2 E3. exists s, c, h, o, p, q, f, w1, w2.
  split; [subst s; unfold around; now destruct (u_scheme u)|].
  split. { subst c. unfold credentials_shown. destruct (u_username u) as [us|], (u_password u) as [pw|]; cbn [get_bytes].
           - right. left. exists us. split; [reflexivity|]. left. exists pw. now split.
           - right. left. exists us. split; [reflexivity|]. right. now split.
           - right. right. split; [reflexivity|]. exists pw. now split.
           - left. now repeat split. }
  split. { subst h. unfold around. destruct (u_hostname u); cbn [get_bytes app]; now rewrite ?app_nil_r. }
  split; [subst o; unfold around; now destruct (u_port u)|]. split; [exact P|]. split; [exact Q|].
  split; [subst f; unfold around; now destruct (u_fragment u)|].
  rewrite <- !app_assoc in E1, E2. set (tl := p ++ q ++ f) in *. split.
  - subst partial. unfold unless_empty. destruct tl as [|x tl]; [left; split; [reflexivity|]; now destruct (s ++ _)|right]. split; [discriminate|].
    destruct (s ++ c ++ h ++ o ++ x :: tl) as [|y l] eqn:Z; [|reflexivity]. repeat (apply app_eq_nil in Z as [_ Z]). discriminate Z.
  - split; [|now symmetry]. subst full. unfold unless_empty. destruct (s ++ c ++ h ++ o ++ tl) as [|y l]; [now left|right; now split].
Qed.
