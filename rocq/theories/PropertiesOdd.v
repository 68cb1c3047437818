(** Property C77 of properties.jsonl: odd header fields are told by the flags of the transaction, by one warning each and by the
    flags of the stored headers. [says] and [fields_ok]: C76. *)
From Verif Require Import Base ModelUtil ModelBstr ModelHeaders ModelTx Spec SpecField ProofsField SpecOdd ProofsOdd.

(** * C77 *)
(** A flag is raised exactly if it was before or a field has an oddity that raises it; no other flag changes. *)
Theorem C77_flags_exact : forall sd fs hs t, Forall2 says fs hs ->
  (forall F, In F [FIELD_INVALID; INVALID_FOLDING; FIELD_UNPARSEABLE] ->
     (N.land (x_flags (add_headers sd hs t)) F <> 0 <-> N.land (x_flags t) F <> 0 \/ exists f o, In f fs /\ odd f o /\ raises o = F)) /\
  (forall i, (forall F, In F [FIELD_INVALID; INVALID_FOLDING; FIELD_UNPARSEABLE] -> N.testbit F i = false) ->
     N.testbit (x_flags (add_headers sd hs t)) i = N.testbit (x_flags t) i).
Proof. exact told_flags. Qed.
Print Assumptions C77_flags_exact.
(** For each of these flags there is at most one warning in a transaction: of the first oddity that raises it. *)
Theorem C77_warned_once : forall sd fs hs t F, Forall2 says fs hs -> In F [FIELD_INVALID; INVALID_FOLDING; FIELD_UNPARSEABLE] ->
  (N.land (x_flags t) F <> 0 -> warnings_of sd F (add_headers_log sd hs t) = []) /\
  (N.land (x_flags t) F = 0 ->
     (forall f o, In f fs -> odd f o -> raises o <> F) /\ warnings_of sd F (add_headers_log sd hs t) = [] \/
     exists f o, first_odd fs F f o /\ warnings_of sd F (add_headers_log sd hs t) = [warning (warns sd o)]).
Proof. exact told_warnings. Qed.
Print Assumptions C77_warned_once.
(** A stored header carries the flags of the first field with its name. *)
Theorem C77_stored_flags : forall sd fs hs t, Forall2 says fs hs -> t_headers (x_dir sd t) = [] ->
  forall h, In h (t_headers (x_dir sd (add_headers sd hs t))) -> exists a f ph b, combine fs hs = a ++ (f, ph) :: b /\
    hd_name h = hf_bytes (ph_name ph) /\ (forall g, In g a -> lowers (hf_bytes (ph_name (snd g))) <> lowers (hd_name h)) /\ own sd f (hd_flags h).
Proof. exact stored_own. Qed.
Print Assumptions C77_stored_flags.
(** An empty name is told as a missing colon: the warnings made for it are never given. *)
Theorem C77_empty_name_refuted : forall sd hs t, Forall (fun m => ~ names_empty m) (add_headers_log sd hs t).
Proof. exact empty_unreported. Qed.
Print Assumptions C77_empty_name_refuted.

Definition ex_odd : list field := [ mk_field (s2b "A: 1") true []; mk_field (s2b "B : 2") false []; mk_field (s2b "C D: 3") true []; mk_field (s2b ":4") true [] ].
Example C77_ex : exists hs, h_headers SReq false (fields_text ex_odd ++ [13; 10]) = Some (POk [] (hs, true)) /\
  x_flags (add_headers SReq hs tx_new) = N.lor FIELD_INVALID FIELD_UNPARSEABLE /\
  add_headers_log SReq hs tx_new = [warning "REQUEST_INVALID_LWS_AFTER_NAME"; warning "REQUEST_FIELD_MISSING_COLON"] /\
  map hd_flags (t_headers (x_req (add_headers SReq hs tx_new))) = [0; FIELD_INVALID; FIELD_INVALID; FIELD_UNPARSEABLE].
Proof. eexists. split; [vm_compute; reflexivity|]. split; [vm_compute; reflexivity|]. split; vm_compute; reflexivity. Qed.
Example C77_ex_odd : odd (mk_field (s2b "B : 2") false []) BlankAfter /\ odd (mk_field (s2b ":4") true []) NoName /\ fields_ok SReq ex_odd.
Proof.
  assert (P : forall l, forallb (fun c => negb (c =? 13) && negb (c =? 10)) l = true -> plain l).
  { intros l H. rewrite forallb_forall in H. apply Forall_forall. intros x Hx. specialize (H x Hx). lia. }
  split; [|split].
  - exists (s2b "B"), 32. split; [|now left]. exists (s2b " 2"), []. apply (nm_here (s2b "B ")). cbn. lia.
  - intros n (v & more & H). inversion H as [n' v' cr' more' N E|]; subst. destruct n as [|x n]; [reflexivity|]. cbn in E. injection E as E _. elim N. left. rewrite E. reflexivity.
  - split; [|repeat (constructor; [intros b l E; vm_compute in E; injection E as <- _; unfold fold_byte; lia|]); constructor].
    repeat (constructor; [split; [now apply P|split; [discriminate|split; [constructor|discriminate]]]|]). constructor.
Qed.
