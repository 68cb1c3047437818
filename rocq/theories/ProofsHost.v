(** Proofs of C60 and C61. *)
From Verif Require Import ProofsUrl ProofsUri.
From Verif Require Import Base Spec SpecTx SpecMsg SpecHost ModelUtil ModelBstr ModelParsers ModelUri ModelHeaders ModelState ModelTx
  ProofsBase ProofsBstr ProofsParsers ProofsTx.

(** * The parts of [process_request_headers] *)
Definition FRAMING : N := N.lor (N.lor REQUEST_SMUGGLING REQUEST_INVALID_T_E) (N.lor REQUEST_INVALID REQUEST_INVALID_C_L).
Definition HOSTS : N := N.lor HOST_MISSING (N.lor HOST_AMBIGUOUS HOSTH_INVALID).
Definition flags_but (m : N) (t t' : tx) : Prop := forall f, N.land m f = 0 -> fis_set (x_flags t') f = fis_set (x_flags t) f.
Definition head_of (t : tx) := (x_parsed t, t_headers (x_req t), t_proton (x_req t)).
Definition host_of (t : tx) := (x_host t, x_port t).
Lemma flags_but_refl m t : flags_but m t t. Proof. intros f _. reflexivity. Qed.
Lemma flags_but_trans m t u v : flags_but m t u -> flags_but m u v -> flags_but m t v.
Proof. intros A B f H. rewrite (B f H). exact (A f H). Qed.
Lemma flags_but_add m g t : N.land g m = g -> flags_but m t (add_flag g t).
Proof.
  intros E f H. unfold add_flag. cbn [x_flags set_x_flags]. apply fis_set_fset. rewrite <- E, <- N.land_assoc, H. apply N.land_0_r.
Qed.
Ltac flb := repeat first
  [ apply flags_but_refl
  | match goal with |- flags_but ?m ?t (if ?c then _ else _) => destruct c end
  | match goal with |- flags_but ?m ?t (add_flag ?f ?u) => apply (flags_but_trans m t u); [|apply flags_but_add; reflexivity] end
  | match goal with |- flags_but ?m ?t (?g ?v ?u) => apply (flags_but_trans m t u); [|intros ? _; reflexivity] end ].
Lemma framing_part t : flags_but FRAMING t (fst (request_framing t)) /\ head_of (fst (request_framing t)) = head_of t /\
  host_of (fst (request_framing t)) = host_of t /\ identity (fst (request_framing t)) = identity t.
Proof.
  unfold request_framing. destruct (headers_get_nocase_nozero _ (s2b "transfer-encoding")) as [te|].
  - destruct (negb _); cbn [fst]; [split; [flb|repeat split; reflexivity]|].
    destruct (is_some (headers_get_nocase_nozero _ _)), (proto_ltb _ _); (split; [flb|repeat split; reflexivity]).
  - destruct (headers_get_nocase_nozero _ _) as [cl|]; cbn [fst]; [|split; [flb|repeat split; reflexivity]].
    destruct (parse_content_length_log _) as [[n|] lg]; cbn [fst]; destruct (fis_set _ FIELD_FOLDED), (fis_set _ FIELD_REPEATED); (split; [flb|repeat split; reflexivity]).
Qed.
Lemma host_part ip6 t : flags_but HOSTS t (request_host ip6 t) /\ head_of (request_host ip6 t) = head_of t /\ identity (request_host ip6 t) = identity t.
Proof.
  unfold request_host. set (a := match parsed_hostname t with Some _ => _ | None => _ end).
  assert (Ha : flags_but HOSTS t a /\ head_of a = head_of t /\ identity a = identity t) by (unfold a; destruct (parsed_hostname t); (split; [flb|split; reflexivity])). clearbody a.
  set (b := match parsed_port_number a with Some _ => _ | None => _ end).
  assert (Hb : flags_but HOSTS a b /\ head_of b = head_of a /\ identity b = identity a) by (unfold b; destruct (parsed_port_number a); (split; [flb|split; reflexivity])). clearbody b.
  destruct Ha as (A1 & A2 & A3), Hb as (B1 & B2 & B3). rewrite <- A2, <- A3, <- B2, <- B3.
  match goal with |- flags_but _ _ ?r /\ _ => enough (Z : flags_but HOSTS b r /\ head_of r = head_of b /\ identity r = identity b)
    by (destruct Z as (Z1 & Z2 & Z3); split; [exact (flags_but_trans _ _ _ _ A1 (flags_but_trans _ _ _ _ B1 Z1))|split; assumption]) end.
  clear. destruct headers_get_nocase_nozero as [h|]; [|destruct (proto_ltb _ _); (split; [flb|split; reflexivity])].
  destruct (parse_hostport ip6 (hd_value h)) as [? [[hn pn] v]| |]; [|destruct (is_some _); (split; [flb|split; reflexivity])..].
  set (c := if v then b else _). assert (Hc : flags_but HOSTS b c /\ head_of c = head_of b /\ identity c = identity b) by (unfold c; destruct v; (split; [flb|split; reflexivity])). clearbody c.
  destruct Hc as (C1 & C2 & C3). rewrite <- C2, <- C3.
  match goal with |- flags_but _ _ ?r /\ _ => enough (Z : flags_but HOSTS c r /\ head_of r = head_of c /\ identity r = identity c)
    by (destruct Z as (Z1 & Z2 & Z3); split; [exact (flags_but_trans _ _ _ _ C1 Z1)|split; assumption]) end.
  clear. destruct (x_host c) as [ho|].
  - destruct (is_eq _); (destruct pn as [[? p]|]; [|split; [flb|split; reflexivity]]); destruct (x_port _); try (split; [flb|split; reflexivity]); destruct p; try (split; [flb|split; reflexivity]); destruct (_ =? _); (split; [flb|split; reflexivity]).
  - destruct pn as [[? p]|]; (split; [flb|split; reflexivity]).
Qed.
Lemma auth_part p b64 t : flags_but AUTH_INVALID t (request_auth p b64 t) /\ head_of (request_auth p b64 t) = head_of t /\ host_of (request_auth p b64 t) = host_of t.
Proof.
  unfold request_auth. destruct p; [|repeat split; apply flags_but_refl]. unfold parse_authorization. destruct headers_get_nocase_nozero as [h|]; [|split; [flb|split; reflexivity]].
  destruct (starts_with_nocase _ _).
  { unfold parse_authorization_basic. match goal with |- context [match ?p (hd_value h) with _ => _ end] => destruct (p (hd_value h)) as [r ?| |] end; [|split; [flb|split; reflexivity]..].
    destruct (b64 r) as [d|]; [|split; [flb|split; reflexivity]]. destruct (find_sub _ _) as [[]|]; (split; [flb|split; reflexivity]). }
  destruct (starts_with_nocase _ _). { destruct (parse_authorization_digest _); (split; [flb|split; reflexivity]). }
  destruct (starts_with_nocase _ _); [|split; [flb|split; reflexivity]]. match goal with |- context [match ?p (hd_value h) with _ => _ end] => destruct (p (hd_value h)) as [r ?| |] end; (split; [flb|split; reflexivity]).
Qed.
Lemma process_parts p ip6 b64 t ok t' lg : process_request_headers p ip6 b64 t = (ok, t', lg) -> exists t1 t3,
  (flags_but FRAMING t t1 /\ head_of t1 = head_of t /\ host_of t1 = host_of t /\ identity t1 = identity t) /\
  (x_flags t3 = x_flags (request_host ip6 t1) /\ head_of t3 = head_of (request_host ip6 t1) /\ host_of t3 = host_of (request_host ip6 t1) /\ identity t3 = identity (request_host ip6 t1)) /\
  t' = if ok then request_auth p b64 t3 else t3.
Proof.
  unfold process_request_headers. pose proof (framing_part t) as F. destruct (request_framing t) as [t1 lg1]. cbn [fst] in F. intro H. exists t1.
  destruct headers_get_nocase_nozero as [ct|].
  - destruct (parse_content_type _) as [v|].
    + injection H as <- <- _. eexists. split; [exact F|]. split; [|reflexivity]. repeat split; reflexivity.
    + injection H as <- <- _. eexists. split; [exact F|]. split; [|reflexivity]. repeat split; reflexivity.
  - injection H as <- <- _. eexists. split; [exact F|]. split; [|reflexivity]. repeat split; reflexivity.
Qed.
(** What is said about the host is what [request_host] says. *)
Lemma process_host_part p ip6 b64 t ok t' lg : process_request_headers p ip6 b64 t = (ok, t', lg) -> exists t1,
  (flags_but FRAMING t t1 /\ head_of t1 = head_of t /\ host_of t1 = host_of t) /\
  host_of t' = host_of (request_host ip6 t1) /\ flags_but AUTH_INVALID (request_host ip6 t1) t'.
Proof.
  intro H. destruct (process_parts _ _ _ _ _ _ _ H) as (t1 & t3 & (A1 & A2 & A3 & _) & (B1 & B2 & B3 & _) & ->). exists t1. split; [auto|].
  assert (K : flags_but AUTH_INVALID (request_host ip6 t1) t3) by (intros f _; now rewrite B1).
  destruct ok; [|split; assumption]. destruct (auth_part p b64 t3) as (C1 & _ & C3). split; [congruence|]. exact (flags_but_trans _ _ _ _ K C1).
Qed.
Lemma cmp_nocase_iff a b : is_eq (cmp_nocase a b) = true <-> lowers a = lowers b.
Proof. unfold cmp_nocase. rewrite is_eq_true, lex_cmp_Eq, !lc_all_spec. reflexivity. Qed.

(** * C60 *)
Ltac parts H t1 := destruct (process_host_part _ _ _ _ _ _ _ H) as (t1 & (Fl & Hd & Ho) & Ho' & Fl');
  unfold head_of, host_of in *; injection Hd as Hd1 Hd2 Hd3; injection Ho as Ho1 Ho2; injection Ho' as Ho'1 Ho'2.
Lemma parsed_of t h p : target_host t h p -> parsed_hostname t = Some h /\ parsed_port_number t = p.
Proof. intros (u & E & A & B). unfold parsed_hostname, parsed_port_number. now rewrite E. Qed.
Lemma parsed_none t : target_without_host t -> parsed_hostname t = None /\ parsed_port_number t = None.
Proof. unfold target_without_host, parsed_hostname, parsed_port_number. destruct (x_parsed t) as [u|]; auto. Qed.
Lemma target_host_of t t1 h p : x_parsed t1 = x_parsed t -> target_host t h p -> target_host t1 h p.
Proof. intros E (u & A). exists u. now rewrite E. Qed.
(** [request_host] with its first two assignments made. *)
Definition header_host (ip6 : bytes -> option bool) (t : tx) : tx :=
  match headers_get_nocase_nozero (t_headers (x_req t)) (s2b "host") with
  | Some h =>
      match parse_hostport ip6 (hd_value h) with
      | POk _ (hostname, port_nmb, valid) =>
          let t := if valid then t else add_flag HOSTH_INVALID t in
          match x_host t with
          | None =>
              let t := set_x_host (Some (lowers hostname)) t in
              match port_nmb with Some (_, p) => set_x_port p t | None => t end
          | Some host =>
              let t := if is_eq (cmp_nocase host hostname) then t else add_flag HOST_AMBIGUOUS t in
              match port_nmb with
              | Some (_, p) =>
                  match x_port t with
                  | Some n => if (match p with Some m => n =? m | None => false end) then t else add_flag HOST_AMBIGUOUS t
                  | None => t
                  end
              | None => t
              end
          end
      | _ => if is_some (x_host t) then add_flag HOST_AMBIGUOUS t else t
      end
  | None => if proto_ltb (t_proton (x_req t)) ProtoV1_1 then t else add_flag HOST_MISSING t
  end.
Lemma request_host_eq ip6 t : exists u, request_host ip6 t = header_host ip6 u /\ x_flags u = x_flags t /\ x_req u = x_req t /\
  x_host u = match parsed_hostname t with Some h => Some h | None => x_host t end /\ x_port u = match parsed_port_number t with Some p => Some p | None => x_port t end.
Proof.
  unfold request_host. set (a := match parsed_hostname t with Some _ => _ | None => _ end).
  assert (Ha : parsed_port_number a = parsed_port_number t /\ x_flags a = x_flags t /\ x_req a = x_req t /\ x_port a = x_port t /\ x_host a = match parsed_hostname t with Some h => Some h | None => x_host t end)
    by (unfold a; destruct (parsed_hostname t); repeat split; reflexivity). clearbody a. destruct Ha as (A1 & A2 & A3 & A4 & A5). rewrite A1.
  exists (match parsed_port_number t with Some p => set_x_port (Some p) a | None => a end). split; [reflexivity|].
  destruct (parsed_port_number t); repeat split; assumption.
Qed.
Lemma host_set ip6 t : x_host t <> None -> host_of (header_host ip6 t) = host_of t.
Proof.
  intro N0. unfold header_host. destruct headers_get_nocase_nozero as [h|]; [|destruct (proto_ltb _ _); reflexivity].
  destruct (parse_hostport ip6 (hd_value h)) as [? [[hn pn] v]| |]; [|destruct (is_some _); reflexivity..].
  set (c := if v then t else _). assert (Hc : x_host c = x_host t /\ x_port c = x_port t) by (unfold c; destruct v; split; reflexivity). clearbody c. destruct Hc as [Hc1 Hc2].
  unfold host_of. rewrite <- Hc1, <- Hc2 in *. clear Hc1 Hc2. destruct (x_host c) as [ho|] eqn:E; [|contradiction].
  set (d := if is_eq _ then c else _). assert (Hd : x_host d = Some ho /\ x_port d = x_port c) by (unfold d; destruct (is_eq _); split; try assumption; reflexivity). clearbody d. destruct Hd as [Hd1 Hd2].
  destruct pn as [[? p]|]; [|congruence]. destruct (x_port d) as [n|] eqn:Ed; [|congruence]. destruct (match p with Some m => n =? m | None => false end); cbn [add_flag x_host x_port set_x_flags]; congruence.
Qed.
Lemma uri_host_set p ip6 b64 t ok t' lg h pn : process_request_headers p ip6 b64 t = (ok, t', lg) -> (pn = None -> x_port t = None) -> target_host t h pn ->
  x_host t' = Some h /\ x_port t' = pn.
Proof.
  intros H U T. parts H t1. apply (target_host_of _ _ _ _ Hd1), parsed_of in T. destruct T as [T1 T2].
  destruct (request_host_eq ip6 t1) as (u & E & _ & _ & X1 & X2). rewrite T1 in X1. rewrite T2, Ho2 in X2.
  rewrite E in *. pose proof (host_set ip6 u) as S. unfold host_of in S. specialize (S ltac:(rewrite X1; discriminate)). injection S as S1 S2. rewrite Ho'1, Ho'2, S1, S2, X1, X2. split; [reflexivity|]. destruct pn; auto.
Qed.
Theorem uri_host_wins p ip6 b64 t ok t' lg h pn : process_request_headers p ip6 b64 t = (ok, t', lg) -> undecided t -> target_host t h pn ->
  x_host t' = Some h /\ x_port t' = pn.
Proof. intros H (_ & U) T. exact (uri_host_set _ _ _ _ _ _ _ _ _ H (fun _ => U) T). Qed.
Lemma hostport_valid ip6 v h p : host_text v h p -> exists r pn, parse_hostport ip6 v = POk r (h, pn, validate_hostname ip6 h) /\ match pn with Some (_, n) => n = p /\ p <> None | None => p = None end.
Proof.
  intros (Hh & [[-> ->] | (d & -> & Nd & Dd & Rd & ->)]); unfold parse_hostport.
  - pose proof (hostname_ok h [] Hh) as Hq. rewrite app_nil_r in Hq. rewrite Hq by discriminate. rewrite port_none by discriminate. eexists _, _. split; reflexivity.
  - rewrite (hostname_ok h (s2b ":" ++ d) Hh).
    2:{ intros x r E. injection E as <- _. cbn. auto. }
    assert (Nb : no_bytes (s2b "/?# ") d) by (eapply Forall_impl; [|exact Dd]; intros c Hc I; unfold digit in Hc; cbn in I; intuition lia).
    pose proof (port_ok d [] Nd Nb ltac:(discriminate)) as Po. rewrite app_nil_r in Po. change (s2b ":" ++ d) with (58 :: d). rewrite Po.
    replace (convert_port d) with (Some (dec_value d)); [eexists _, _; split; [reflexivity|split; [reflexivity|discriminate]]|].
    symmetry. apply convert_port_spec. exists d. repeat split; [now left|assumption..|apply Rd|apply Rd].
Qed.
Theorem header_host_used p ip6 b64 t ok t' lg l h pn : process_request_headers p ip6 b64 t = (ok, t', lg) -> undecided t -> target_without_host t ->
  the_header (t_headers (x_req t)) (s2b "host") l -> host_text (hd_value l) h pn ->
  x_host t' = Some (lowers h) /\ x_port t' = pn /\ fis_set (x_flags t') HOST_AMBIGUOUS = fis_set (x_flags t) HOST_AMBIGUOUS.
Proof.
  intros H (U1 & U2) T L HT. parts H t1. apply parsed_none in T. destruct T as [T1 T2].
  destruct (request_host_eq ip6 t1) as (u & E & X0 & Xr & X1 & X2). unfold parsed_hostname, parsed_port_number in *. rewrite Hd1 in X1, X2. rewrite T1, Ho1, U1 in X1. rewrite T2, Ho2, U2 in X2.
  rewrite E in *. destruct (hostport_valid ip6 _ _ _ HT) as (r & q & P & Q).
  unfold header_host in *. rewrite Xr, Hd2, (get_the_header _ _ _ L), P in *.
  set (c := if validate_hostname ip6 h then u else _) in *. assert (Hc : x_host c = None /\ x_port c = None /\ fis_set (x_flags c) HOST_AMBIGUOUS = fis_set (x_flags u) HOST_AMBIGUOUS).
  { unfold c. destruct (validate_hostname ip6 h); repeat split; try assumption. cbn [add_flag x_flags set_x_flags]. now apply fis_set_fset. }
  clearbody c. destruct Hc as (C1 & C2 & C3). rewrite C1 in *.
  assert (G : fis_set (x_flags t') HOST_AMBIGUOUS = fis_set (x_flags c) HOST_AMBIGUOUS) by (rewrite (Fl' HOST_AMBIGUOUS eq_refl); destruct q as [[? ?]|]; reflexivity).
  rewrite G, C3, X0, (Fl HOST_AMBIGUOUS eq_refl), Ho'1, Ho'2. destruct q as [[? n]|]; cbn [x_host x_port set_x_host set_x_port]; repeat split; [apply Q|]. now subst.
Qed.
Lemma host_conflict p ip6 b64 t ok t' lg l h pn n qn : process_request_headers p ip6 b64 t = (ok, t', lg) -> (pn = None -> x_port t = None) -> target_host t h pn ->
  the_header (t_headers (x_req t)) (s2b "host") l -> host_text (hd_value l) n qn ->
  (fis_set (x_flags t') HOST_AMBIGUOUS = true <->
   fis_set (x_flags t) HOST_AMBIGUOUS = true \/ lowers h <> lowers n \/ exists a b, pn = Some a /\ qn = Some b /\ a <> b).
Proof.
  intros H U T L HT. parts H t1. apply (target_host_of _ _ _ _ Hd1), parsed_of in T. destruct T as [T1 T2].
  destruct (request_host_eq ip6 t1) as (u & E & X0 & Xr & X1 & X2). rewrite T1 in X1. rewrite T2, Ho2 in X2.
  assert (X3 : x_port u = pn) by (rewrite X2; destruct pn; auto). clear X2.
  rewrite E in *. destruct (hostport_valid ip6 _ _ _ HT) as (r & q & P & Q).
  rewrite (Fl' HOST_AMBIGUOUS eq_refl), <- (Fl HOST_AMBIGUOUS eq_refl), <- X0. clear Fl Fl' Ho'1 Ho'2 E X0.
  unfold header_host. rewrite Xr, Hd2, (get_the_header _ _ _ L), P.
  set (c := if validate_hostname ip6 n then u else _). assert (Hc : x_host c = Some h /\ x_port c = pn /\ fis_set (x_flags c) HOST_AMBIGUOUS = fis_set (x_flags u) HOST_AMBIGUOUS).
  { unfold c. destruct (validate_hostname ip6 n); repeat split; try assumption. cbn [add_flag x_flags set_x_flags]. now apply fis_set_fset. }
  clearbody c. destruct Hc as (C1 & C2 & C3). rewrite C1, <- C3. pose proof (cmp_nocase_iff h n) as K.
  set (d := if is_eq _ then c else _). assert (D : x_port d = pn /\ (fis_set (x_flags d) HOST_AMBIGUOUS = true <-> fis_set (x_flags c) HOST_AMBIGUOUS = true \/ lowers h <> lowers n)).
  { unfold d. destruct (is_eq (cmp_nocase h n)) eqn:Ec.
    - split; [assumption|]. split; [auto|]. intros [Z|Z]; [exact Z|]. destruct Z. now apply K.
    - split; [assumption|]. cbn [add_flag x_flags set_x_flags]. rewrite fis_set_added by discriminate. split; [|reflexivity]. intros _. right. intro Z. apply K in Z. discriminate. }
  clearbody d. destruct D as [D1 D2]. destruct q as [[? m]|].
  - destruct Q as [-> Nq]. rewrite D1. destruct pn as [a|].
    + destruct qn as [b|]; [|contradiction]. destruct (N.eqb_spec a b) as [->|Nab].
      * rewrite D2. split; [tauto|]. intros [Z|[Z|(x & y & A1 & A2 & Z)]]; auto; exfalso; congruence.
      * cbn [add_flag x_flags set_x_flags]. rewrite fis_set_added by discriminate. split; [|reflexivity]. intros _. right. right. eauto.
    + rewrite D2. split; [tauto|]. intros [Z|[Z|(x & y & Z & _)]]; auto; discriminate.
  - subst qn. rewrite D2. split; [tauto|]. intros [Z|[Z|(x & y & _ & Z & _)]]; auto; discriminate.
Qed.
Theorem host_ambiguous p ip6 b64 t ok t' lg l h pn n qn : process_request_headers p ip6 b64 t = (ok, t', lg) -> undecided t -> target_host t h pn ->
  the_header (t_headers (x_req t)) (s2b "host") l -> host_text (hd_value l) n qn ->
  (fis_set (x_flags t') HOST_AMBIGUOUS = true <->
   fis_set (x_flags t) HOST_AMBIGUOUS = true \/ lowers h <> lowers n \/ exists a b, pn = Some a /\ qn = Some b /\ a <> b).
Proof. intros H (_ & U). exact (host_conflict _ _ _ _ _ _ _ _ _ _ _ _ H (fun _ => U)). Qed.
Theorem host_missing p ip6 b64 t ok t' lg : process_request_headers p ip6 b64 t = (ok, t', lg) ->
  (fis_set (x_flags t') HOST_MISSING = true <->
   fis_set (x_flags t) HOST_MISSING = true \/ (lacks (t_headers (x_req t)) (s2b "host") /\ t_proton (x_req t) = ProtoV1_1)).
Proof.
  intros H. parts H t1. rewrite (Fl' HOST_MISSING eq_refl), <- (Fl HOST_MISSING eq_refl).
  destruct (request_host_eq ip6 t1) as (u & E & X0 & Xr & _). rewrite E, <- X0. clear Fl Fl' Ho'1 Ho'2 E X0.
  unfold header_host. rewrite Xr, Hd2, Hd3. destruct (headers_get_nocase_nozero _ (s2b "host")) as [l|] eqn:G.
  - assert (Nl : ~ lacks (t_headers (x_req t)) (s2b "host")) by (intro Z; apply get_lacks in Z; congruence).
    match goal with |- fis_set (x_flags ?r) _ = true <-> _ => enough (K : flags_but (N.lor HOST_AMBIGUOUS HOSTH_INVALID) u r) by (rewrite (K HOST_MISSING eq_refl); tauto) end.
    destruct (parse_hostport ip6 (hd_value l)) as [? [[hn pn] v]| |]; [|flb..].
    set (c := if v then u else _). assert (Hc : flags_but (N.lor HOST_AMBIGUOUS HOSTH_INVALID) u c) by (unfold c; flb). clearbody c. apply (flags_but_trans _ _ _ _ Hc). clear.
    destruct (x_host c) as [ho|].
    + set (d := if is_eq _ then c else _). assert (Hd : flags_but (N.lor HOST_AMBIGUOUS HOSTH_INVALID) c d) by (unfold d; flb). clearbody d. apply (flags_but_trans _ _ _ _ Hd). clear.
      destruct pn as [[? q]|]; [|flb]. destruct (x_port d); flb.
    + destruct pn as [[? q]|]; flb.
  - apply header_lookup_first_match in G. destruct (proto_ltb _ _) eqn:Q.
    + apply old_proto in Q. tauto.
    + assert (Z : t_proton (x_req t) = ProtoV1_1) by (destruct (t_proton (x_req t)); try discriminate; reflexivity).
      cbn [add_flag x_flags set_x_flags]. rewrite fis_set_added by discriminate. tauto.
Qed.
Theorem host_absent p ip6 b64 t ok t' lg : process_request_headers p ip6 b64 t = (ok, t', lg) -> undecided t -> target_without_host t ->
  lacks (t_headers (x_req t)) (s2b "host") -> undecided t' /\
  fis_set (x_flags t') HOST_AMBIGUOUS = fis_set (x_flags t) HOST_AMBIGUOUS /\ fis_set (x_flags t') HOSTH_INVALID = fis_set (x_flags t) HOSTH_INVALID.
Proof.
  intros H (U1 & U2) T L. parts H t1. apply parsed_none in T. destruct T as [T1 T2].
  rewrite (Fl' HOST_AMBIGUOUS eq_refl), <- (Fl HOST_AMBIGUOUS eq_refl), (Fl' HOSTH_INVALID eq_refl), <- (Fl HOSTH_INVALID eq_refl).
  destruct (request_host_eq ip6 t1) as (u & E & X0 & Xr & X1 & X2). unfold parsed_hostname, parsed_port_number in *. rewrite Hd1 in X1, X2. rewrite T1, Ho1, U1 in X1. rewrite T2, Ho2, U2 in X2.
  unfold undecided. rewrite Ho'1, Ho'2, E, <- X0. unfold header_host. rewrite Xr, Hd2, (get_lacks _ _ L).
  destruct (proto_ltb _ _); cbn [add_flag x_host x_port x_flags set_x_flags]; [auto|]. rewrite !fis_set_fset by reflexivity. auto.
Qed.
Lemma invalid_after ip6 u l hn pn v r : headers_get_nocase_nozero (t_headers (x_req u)) (s2b "host") = Some l -> parse_hostport ip6 (hd_value l) = POk r (hn, pn, v) ->
  fis_set (x_flags (header_host ip6 u)) HOSTH_INVALID = fis_set (x_flags u) HOSTH_INVALID || negb v.
Proof.
  intros G P. unfold header_host. rewrite G, P.
  match goal with |- context [match x_host ?c0 with _ => _ end] => set (c := c0) end.
  assert (Hc : fis_set (x_flags c) HOSTH_INVALID = fis_set (x_flags u) HOSTH_INVALID || negb v).
  { unfold c. destruct v; [now rewrite orb_false_r|]. cbn [add_flag x_flags set_x_flags negb]. rewrite orb_true_r. now apply fis_set_added. }
  rewrite <- Hc. clearbody c. clear.
  match goal with |- fis_set (x_flags ?q) _ = _ => enough (K : flags_but HOST_AMBIGUOUS c q) by exact (K HOSTH_INVALID eq_refl) end.
  destruct (x_host c) as [ho|].
  - set (d := if is_eq _ then c else _). assert (Hd : flags_but HOST_AMBIGUOUS c d) by (unfold d; flb). clearbody d. apply (flags_but_trans _ _ _ _ Hd). clear.
    destruct pn as [[? q]|]; [|flb]. destruct (x_port d); flb.
  - destruct pn as [[? q]|]; flb.
Qed.
Theorem host_invalid p ip6 b64 t ok t' lg l h pn : process_request_headers p ip6 b64 t = (ok, t', lg) ->
  the_header (t_headers (x_req t)) (s2b "host") l -> host_text (hd_value l) h pn -> Forall is_byte h -> (forall addr, ~ bracketed h addr) ->
  (fis_set (x_flags t') HOSTH_INVALID = true <-> fis_set (x_flags t) HOSTH_INVALID = true \/ ~ good_hostname h).
Proof.
  intros H L HT B NB. parts H t1. rewrite (Fl' HOSTH_INVALID eq_refl), <- (Fl HOSTH_INVALID eq_refl).
  destruct (request_host_eq ip6 t1) as (u & E & X0 & Xr & _). rewrite E, <- X0. clear Fl Fl' Ho'1 Ho'2 E X0.
  destruct (hostport_valid ip6 _ _ _ HT) as (r & q & P & _). rewrite (invalid_after ip6 u l h q (validate_hostname ip6 h) r); [|rewrite Xr, Hd2; now apply get_the_header|exact P].
  rewrite <- (validate_plain ip6 h B NB), orb_true_iff, negb_true_iff, not_true_iff_false. reflexivity.
Qed.
Theorem host_literal_invalid p ip6 b64 t ok t' lg l h pn addr good : process_request_headers p ip6 b64 t = (ok, t', lg) ->
  the_header (t_headers (x_req t)) (s2b "host") l -> host_text (hd_value l) h pn -> bracketed h addr -> (length h <= 255)%nat -> ip6 addr = Some good ->
  (fis_set (x_flags t') HOSTH_INVALID = true <-> fis_set (x_flags t) HOSTH_INVALID = true \/ good = false).
Proof.
  intros H L HT B Lh I. parts H t1. rewrite (Fl' HOSTH_INVALID eq_refl), <- (Fl HOSTH_INVALID eq_refl).
  destruct (request_host_eq ip6 t1) as (u & E & X0 & Xr & _). rewrite E, <- X0. clear Fl Fl' Ho'1 Ho'2 E X0.
  destruct (hostport_valid ip6 _ _ _ HT) as (r & q & P & _). rewrite (invalid_after ip6 u l h q (validate_hostname ip6 h) r); [|rewrite Xr, Hd2; now apply get_the_header|exact P].
  rewrite (validate_bracketed ip6 h addr B Lh) by congruence. rewrite I, orb_true_iff, negb_true_iff. reflexivity.
Qed.
Theorem port_invalid p ip6 b64 t ok t' lg l h d : process_request_headers p ip6 b64 t = (ok, t', lg) ->
  the_header (t_headers (x_req t)) (s2b "host") l -> hd_value l = h ++ s2b ":" ++ d -> plain_host h \/ literal_host h -> bad_port d ->
  fis_set (x_flags t') HOSTH_INVALID = true.
Proof.
  intros H L V Hh (Nd & Nb & Bp). parts H t1. rewrite (Fl' HOSTH_INVALID eq_refl).
  destruct (request_host_eq ip6 t1) as (u & E & X0 & Xr & _). rewrite E. clear Fl Fl' Ho'1 Ho'2 E X0.
  assert (P : parse_hostport ip6 (hd_value l) = POk (58 :: d) (h, Some (d, None), false)).
  { rewrite V. unfold parse_hostport. rewrite (hostname_ok h (s2b ":" ++ d) Hh).
    2:{ intros x r E. injection E as <- _. cbn. auto. }
    pose proof (port_ok d [] Nd Nb ltac:(discriminate)) as Po. rewrite app_nil_r in Po. change (s2b ":" ++ d) with (58 :: d). rewrite Po.
    destruct (convert_port d) as [n|] eqn:C; [|reflexivity]. apply convert_port_spec in C. destruct (Bp n). exact C. }
  rewrite (invalid_after ip6 u l h (Some (d, None)) false (58 :: d)); [|rewrite Xr, Hd2; now apply get_the_header|exact P]. apply orb_true_r.
Qed.
Theorem rest_invalid p ip6 b64 t ok t' lg l h r : process_request_headers p ip6 b64 t = (ok, t', lg) ->
  the_header (t_headers (x_req t)) (s2b "host") l -> hd_value l = h ++ r -> plain_host h \/ literal_host h -> no_port r ->
  fis_set (x_flags t') HOSTH_INVALID = true.
Proof.
  intros H L V Hh R. parts H t1. rewrite (Fl' HOSTH_INVALID eq_refl).
  destruct (request_host_eq ip6 t1) as (u & E & X0 & Xr & _). rewrite E. clear Fl Fl' Ho'1 Ho'2 E X0.
  assert (Po : port r = PErr /\ r <> [] /\ forall x y, r = x :: y -> In x (s2b "/?#:")).
  { assert (D : forall x y, In x (s2b "/?#") -> is_not_c (s2b "/?#") (x :: y) = PErr).
    { intros x y I. cbn in I. destruct I as [<-|[<-|[<-|[]]]]; reflexivity. }
    destruct R as [(x & y & -> & I)|[-> |(x & y & -> & I)]].
    - cbn in I. destruct I as [<-|[<-|[<-|[]]]]; (split; [reflexivity|split; [discriminate|]]); intros ? ? [= <- <-]; cbn; auto.
    - split; [reflexivity|split; [discriminate|]]. intros ? ? [= <- <-]. cbn. auto.
    - split; [|split; [discriminate|]; intros ? ? [= <- <-]; cbn; auto].
      cbn in I. destruct I as [<-|[<-|[<-|[]]]]; reflexivity. }
  destruct Po as (Po & Nr & St).
  assert (P : parse_hostport ip6 (hd_value l) = POk r (h, None, false)).
  { rewrite V. unfold parse_hostport. rewrite (hostname_ok h r Hh St), Po. destruct r; [contradiction|reflexivity]. }
  rewrite (invalid_after ip6 u l h None false r); [|rewrite Xr, Hd2; now apply get_the_header|exact P]. apply orb_true_r.
Qed.

(** * C61 *)
Lemma process_auth_part p ip6 b64 t t' lg : process_request_headers p ip6 b64 t = (true, t', lg) -> exists t3,
  t_headers (x_req t3) = t_headers (x_req t) /\ identity t3 = identity t /\ fis_set (x_flags t3) AUTH_INVALID = fis_set (x_flags t) AUTH_INVALID /\ t' = request_auth p b64 t3.
Proof.
  intro H. destruct (process_parts _ _ _ _ _ _ _ H) as (t1 & t3 & (A1 & A2 & _ & A4) & (B1 & B2 & _ & B4) & ->). exists t3.
  destruct (host_part ip6 t1) as (C1 & C2 & C3). unfold head_of in *. split; [congruence|]. split; [congruence|]. split; [|reflexivity].
  rewrite B1, (C1 AUTH_INVALID eq_refl). exact (A1 AUTH_INVALID eq_refl).
Qed.
Theorem auth_off ip6 b64 t ok t' lg : process_request_headers false ip6 b64 t = (ok, t', lg) -> identity t' = identity t /\ fis_set (x_flags t') AUTH_INVALID = fis_set (x_flags t) AUTH_INVALID.
Proof.
  intro H. destruct (process_parts _ _ _ _ _ _ _ H) as (t1 & t3 & (A1 & A2 & _ & A4) & (B1 & B2 & _ & B4) & ->).
  destruct (host_part ip6 t1) as (C1 & C2 & C3). assert (Z : identity t3 = identity t /\ fis_set (x_flags t3) AUTH_INVALID = fis_set (x_flags t) AUTH_INVALID).
  { split; [congruence|]. rewrite B1, (C1 AUTH_INVALID eq_refl). exact (A1 AUTH_INVALID eq_refl). }
  destruct ok; exact Z.
Qed.
Theorem auth_none ip6 b64 t t' lg : process_request_headers true ip6 b64 t = (true, t', lg) -> lacks (t_headers (x_req t)) (s2b "authorization") ->
  identity t' = (AuNone, x_user t, x_pass t, x_token t) /\ fis_set (x_flags t') AUTH_INVALID = fis_set (x_flags t) AUTH_INVALID.
Proof.
  intros H L. destruct (process_auth_part _ _ _ _ _ _ H) as (t3 & Hh & Hi & Hf & ->). injection Hi as I1 I2 I3 I4.
  unfold request_auth, parse_authorization. rewrite Hh, (get_lacks _ _ L). unfold identity. cbn [x_auth x_user x_pass x_token x_flags set_x_auth]. split; [congruence|exact Hf].
Qed.
Lemma name_eq_length a b : name_eq a b -> length a = length b.
Proof. intro H. apply name_eq_lowers in H. apply (f_equal (@length N)) in H. unfold lowers in H. now rewrite !map_length in H. Qed.
Lemma starts_scheme v k : starts_with_nocase v (s2b k) = true <-> says_scheme k v.
Proof.
  unfold starts_with_nocase, says_scheme. split.
  - destruct (Nat.ltb_spec (length v) (length (s2b k))); [discriminate|]. intro E. apply bytes_eqb_eq in E. exists (firstn (length (s2b k)) v), (skipn (length (s2b k)) v).
    split; [symmetry; apply firstn_skipn|]. now apply name_eq_lowers.
  - intros (w & r & -> & E). assert (L : length w = length (s2b k)) by (apply name_eq_length; exact E). rewrite app_length. destruct (Nat.ltb_spec (length w + length r) (length (s2b k))); [lia|].
    rewrite <- L, firstn_app, firstn_all, Nat.sub_diag, firstn_O, app_nil_r. apply bytes_eqb_eq. now apply name_eq_lowers.
Qed.
Lemma credentials_scheme k v r : says_credentials k v r -> says_scheme k v.
Proof. intros (w & ws & -> & E & _). exists w, (ws ++ r). split; [reflexivity|exact E]. Qed.
Lemma scheme_apart k k' v : says_scheme k v -> hd 0 (s2b k) <> hd 0 (s2b k') -> s2b k <> [] -> s2b k' <> [] -> Forall (fun c => lower c = c) (s2b k ++ s2b k') -> starts_with_nocase v (s2b k') = false.
Proof.
  intros (w & r & -> & E) D N1 N2 F. apply not_true_iff_false. rewrite starts_scheme. intros (w' & r' & Eq & E').
  apply name_eq_lowers in E, E'. destruct (s2b k) as [|c l]; [contradiction|]. destruct (s2b k') as [|c' l']; [contradiction|].
  destruct w as [|x w]; [discriminate|]. destruct w' as [|x' w']; [discriminate|]. injection Eq as <- _. cbn in E, E', D. injection E as E _. injection E' as E' _.
  apply Forall_app in F. destruct F as [F1 F2]. inversion F1; subst. inversion F2; subst. congruence.
Qed.
Lemma credentials_parse k v r : says_credentials k v r -> (plet _b := tag_no_case_c (s2b k) in take_ascii_whitespace) v = POk r (firstn (length v - length (s2b k) - length r) (skipn (length (s2b k)) v)).
Proof.
  intros (w & ws & -> & E & S & N0). unfold pbind. assert (T : tag_no_case_c (s2b k) (w ++ ws ++ r) = POk (ws ++ r) w) by (apply tag_no_case_c_ok; split; [reflexivity|exact E]). rewrite T.
  assert (L : length w = length (s2b k)) by (apply name_eq_length; exact E).
  rewrite <- L, skipn_app, skipn_all, Nat.sub_diag, skipn_O. cbn [app]. rewrite !app_length. replace (length w + (length ws + length r) - length w - length r)%nat with (length ws) by lia.
  rewrite firstn_app, firstn_all, Nat.sub_diag, firstn_O, app_nil_r. unfold take_ascii_whitespace, take_while_c. rewrite span_app; [reflexivity|..].
  - eapply Forall_impl; [|exact S]. intro c. unfold ascii_space, is_ascii_ws. lia.
  - intros x r' ->. specialize (N0 x r' eq_refl). unfold ascii_space, is_ascii_ws in *. lia.
Qed.
Lemma find_colon u w : ~ In 58 u -> find_sub [58] (u ++ 58 :: w) = Some (u, 58 :: w).
Proof.
  intro N0. induction u as [|x u IH]; [reflexivity|]. cbn [app find_sub]. cbn in N0. replace (starts_with [58] (x :: u ++ 58 :: w)) with false; [rewrite IH by tauto; reflexivity|].
  symmetry. apply starts_with_false. intros r [= -> _]. tauto.
Qed.
Lemma find_no_colon d : ~ In 58 d -> find_sub [58] d = None.
Proof. intro H. apply find_sub_None. intros a r ->. apply H. apply in_or_app. right. now left. Qed.
(** A header of one scheme: the tests before it fail. *)
Ltac other_scheme S := rewrite (scheme_apart _ _ _ S); [|vm_compute; discriminate..|vm_compute; repeat constructor].
Section auth.
Context (ip6 : bytes -> option bool) (b64 : bytes -> option bytes) (t t' : tx) (lg : list logmsg) (a : header).
Hypothesis H : process_request_headers true ip6 b64 t = (true, t', lg).
Hypothesis L : the_header (t_headers (x_req t)) (s2b "authorization") a.
Ltac start t3 := destruct (process_auth_part _ _ _ _ _ _ H) as (t3 & Hh & Hi & Hf & ->); injection Hi as I1 I2 I3 I4;
  unfold request_auth, parse_authorization; rewrite Hh, (get_the_header _ _ _ L).
Ltac done := unfold identity; cbn [x_auth x_user x_pass x_token x_flags set_x_auth set_x_user set_x_pass set_x_token add_flag set_x_flags tl]; split; [congruence|first [assumption | now apply fis_set_added]].
Lemma auth_basic enc u pw : says_credentials "basic" (hd_value a) enc -> b64 enc = Some (u ++ s2b ":" ++ pw) -> ~ In 58 u ->
  identity t' = (AuBasic, Some u, Some pw, x_token t) /\ fis_set (x_flags t') AUTH_INVALID = fis_set (x_flags t) AUTH_INVALID.
Proof.
  intros C B N0. start t3. pose proof (credentials_scheme _ _ _ C) as S. apply starts_scheme in S. rewrite S. unfold parse_authorization_basic.
  rewrite (credentials_parse _ _ _ C), B. change (s2b ":" ++ pw) with (58 :: pw). rewrite find_colon by exact N0. done.
Qed.
Lemma auth_basic_bad enc : says_credentials "basic" (hd_value a) enc -> (forall d, b64 enc = Some d -> ~ In 58 d) ->
  identity t' = (AuBasic, x_user t, x_pass t, x_token t) /\ fis_set (x_flags t') AUTH_INVALID = true.
Proof.
  intros C B. start t3. pose proof (credentials_scheme _ _ _ C) as S. apply starts_scheme in S. rewrite S. unfold parse_authorization_basic.
  rewrite (credentials_parse _ _ _ C). destruct (b64 enc) as [d|]; [rewrite find_no_colon by now apply B|]; done.
Qed.
Lemma auth_bearer tok : says_credentials "bearer" (hd_value a) tok ->
  identity t' = (AuBearer, x_user t, x_pass t, Some tok) /\ fis_set (x_flags t') AUTH_INVALID = fis_set (x_flags t) AUTH_INVALID.
Proof.
  intros C. start t3. pose proof (credentials_scheme _ _ _ C) as S.
  assert (Sb : starts_with_nocase (hd_value a) (s2b "basic") = false).
  { apply not_true_iff_false. rewrite starts_scheme. destruct S as (w & r & -> & E). intros (w' & r' & Eq & E'). apply name_eq_lowers in E, E'.
apply (f_equal lowers) in Eq. unfold lowers in *. rewrite !map_app, E, E' in Eq. discriminate. }
  rewrite Sb. other_scheme S. apply starts_scheme in S. rewrite S, (credentials_parse _ _ _ C). done.
Qed.
Lemma auth_digest pre ws u rest : says_scheme "digest" (hd_value a) -> hd_value a = pre ++ s2b "username=" ++ ws ++ [34] ++ escape_quotes u ++ [34] ++ rest ->
  (forall x y, pre ++ s2b "username=" = x ++ s2b "username=" ++ y -> y = []) -> Forall ascii_space ws -> (forall v, u <> v ++ [92]) ->
  identity t' = (AuDigest, Some u, x_pass t, x_token t) /\ fis_set (x_flags t') AUTH_INVALID = fis_set (x_flags t) AUTH_INVALID.
Proof.
  intros S V P W U. start t3. other_scheme S. apply starts_scheme in S. rewrite S. rewrite V, digest_roundtrip by assumption. done.
Qed.
Lemma auth_digest_bad : says_scheme "digest" (hd_value a) -> (forall x y, hd_value a <> x ++ s2b "username=" ++ y) ->
  identity t' = (AuDigest, x_user t, x_pass t, x_token t) /\ fis_set (x_flags t') AUTH_INVALID = true.
Proof.
  intros S V. start t3. other_scheme S. apply starts_scheme in S. rewrite S.
  unfold parse_authorization_digest, pbind, take_until_c. apply find_sub_None in V. rewrite V. done.
Qed.
Lemma auth_other : ~ says_scheme "basic" (hd_value a) -> ~ says_scheme "digest" (hd_value a) -> ~ says_scheme "bearer" (hd_value a) ->
  identity t' = (AuUnrecognized, x_user t, x_pass t, x_token t) /\ fis_set (x_flags t') AUTH_INVALID = fis_set (x_flags t) AUTH_INVALID.
Proof. intros A B C. start t3. rewrite <- starts_scheme, not_true_iff_false in A, B, C. rewrite A, B, C. done. Qed.
End auth.
