(** Property C76 of properties.jsonl: every header block whose lines hold no CR is read field by field. *)
From Verif Require Import Base ModelUtil ModelHeaders Spec SpecField ProofsField.

(** * C76 *)
Theorem C76_fields_read : forall sd fs cr tail, fields_ok sd fs -> tail_ok sd cr tail -> exists hs,
  h_headers sd false (fields_text fs ++ ending cr ++ tail) = Some (POk tail (hs, true)) /\ Forall2 says fs hs.
Proof. exact read_fields. Qed.
Print Assumptions C76_fields_read.
(** What a field says is one thing. *)
Theorem C76_says_one_thing : forall f h h', says f h -> says f h' ->
  hf_bytes (ph_name h) = hf_bytes (ph_name h') /\ ph_value h = ph_value h' /\
  (forall k, In k [HF_NAME_EMPTY; HF_NAME_LEADING_WHITESPACE; HF_NAME_TRAILING_WHITESPACE; HF_NAME_NON_TOKEN_CHARS] ->
     (N.land (hf_flags (ph_name h)) k <> 0 <-> N.land (hf_flags (ph_name h')) k <> 0)).
Proof. exact says_det. Qed.
Print Assumptions C76_says_one_thing.
(** In a response, a continuation line that looks like a header is one: its leading byte is dropped, and the field before it
    is not marked as folded, whatever continuation lines it had. *)
Theorem C76_response_cut : forall f b l cr t, field_ok SResp f -> fold_byte b -> plain l -> header_like l ->
  (b = 32 -> exists n v more, named (f_line f) (f_cr f) (f_more f) n v more) ->
  exists h, h_header SResp false (field_text f ++ b :: l ++ ending cr ++ t) = Some (POk (l ++ ending cr ++ t) h) /\ says_cut f h.
Proof. exact read_cut. Qed.
Print Assumptions C76_response_cut.
(** A continuation line of one space ended by a bare LF ends the headers, with fields still to come: they are left over as
    body. Ended by CR LF, the same line is a continuation line. *)
Theorem C76_blank_line_refuted : exists fs, field_ok SReq (mk_field (s2b "A: b") true [mk_cl 32 [] true]) /\ fs = [mk_field (s2b "C: d") false []] /\
  (exists h, h_headers SReq false (s2b "A: b" ++ [10; 32; 10] ++ fields_text fs ++ [10]) = Some (POk (fields_text fs ++ [10]) ([h], true))) /\
  (exists h h', h_headers SReq false (s2b "A: b" ++ [13; 10; 32; 13; 10] ++ fields_text fs ++ [10]) = Some (POk [] ([h; h'], true))).
Proof. exact blank_line_ends. Qed.
Print Assumptions C76_blank_line_refuted.

(** A name split over two lines, a folded value, a line without a colon, mixed line endings. *)
Definition ex_fields : list field :=
  [ mk_field (s2b " Na") false [mk_cl 32 (s2b "me : ") true; mk_cl 9 (s2b "one") false; mk_cl 0 (s2b "two ") true];
    mk_field (s2b "no colon") false [];
    mk_field (s2b ":v") true [] ].
Example C76_ex : fields_ok SReq ex_fields /\ fields_ok SResp ex_fields /\ tail_ok SReq false (s2b "body") /\ tail_ok SResp true (s2b "body") /\
  named (s2b " Na") false [mk_cl 32 (s2b "me : ") true; mk_cl 9 (s2b "one") false; mk_cl 0 (s2b "two ") true]
    (s2b " Na" ++ [10] ++ s2b " me ") (s2b " ") [mk_cl 9 (s2b "one") false; mk_cl 0 (s2b "two ") true] /\
  joined [] [mk_cl 9 (s2b "one") false; mk_cl 0 (s2b "two ") true] = s2b "one" ++ [0] ++ s2b "two " /\
  header_like (s2b "C: d").
Proof.
  assert (P : forall l, forallb (fun c => negb (c =? 13) && negb (c =? 10)) l = true -> plain l).
  { intros l H. rewrite forallb_forall in H. apply Forall_forall. intros x Hx. specialize (H x Hx). lia. }
  assert (NC : forall l, forallb (fun c => negb (c =? 58)) l = true -> ~ header_like l).
  { intros l H (a & t & b & r & -> & _). rewrite forallb_forall in H. specialize (H 58).
    rewrite !in_app_iff in H. cbn in H. discriminate (H ltac:(auto)). }
  assert (NM : named (s2b " Na") false [mk_cl 32 (s2b "me : ") true; mk_cl 9 (s2b "one") false; mk_cl 0 (s2b "two ") true]
    (s2b " Na" ++ [10] ++ s2b " me ") (s2b " ") [mk_cl 9 (s2b "one") false; mk_cl 0 (s2b "two ") true]).
  { change (s2b " Na" ++ [10] ++ s2b " me ") with (s2b " Na" ++ ending false ++ s2b " me "). apply nm_next; [cbn; lia|].
    apply (nm_here (s2b " me ") (s2b " ")). cbn; lia. }
  assert (OK : forall sd, fields_ok sd ex_fields).
  { intro sd. split.
    - constructor; [|constructor; [|constructor; [|constructor]]]; (split; [now apply P|split; [discriminate|split]]).
      + repeat (constructor; [split; [cbn; unfold fold_byte; tauto|split; [now apply P|discriminate]]|]). constructor.
      + intros _ more [(n & v & K)|[K _]]; [|elim (K _ _ _ NM)]. destruct (named_det _ _ _ _ _ _ NM _ _ _ K) as (_ & _ & ->).
        repeat (constructor; [now apply NC|]). constructor.
      + constructor.
      + intros _ more [(n & v & K)|[_ ->]]; [inversion K; subst|]; constructor.
      + constructor.
      + intros _ more [(n & v & K)|[_ ->]]; [inversion K; subst|]; constructor.
    - cbn [ex_fields]. repeat (constructor; [intros b l E; vm_compute in E; injection E as <- _; unfold fold_byte; lia|]). constructor. }
  split; [apply OK|]. split; [apply OK|]. split; [intros _ r; discriminate|].
  split; [split; [discriminate|intros b e r _ [-> | ->]; discriminate]|]. split; [exact NM|]. split; [reflexivity|].
  exists [], (s2b "C"), [], (s2b " d"). split; [reflexivity|]. split; [constructor|]. split; [discriminate|]. split; [|constructor].
  constructor; [|constructor]. split; [cbn; lia|]. vm_compute. intuition discriminate.
Qed.
