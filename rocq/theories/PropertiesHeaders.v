(** Properties C21 and C23 of properties.jsonl: the header block parser. *)
From Verif Require Import Base ModelUtil ModelHeaders Spec ProofsHeaders.

(** * C21 *)
Theorem C21_request_block : forall ls tail, Forall good_hline ls -> ls <> [] -> exists hs,
  h_headers SReq false (block_text ls ++ [13; 10] ++ tail) = Some (POk tail (hs, true)) /\
  map kv_of_ph hs = map kv_of ls /\
  Forall (fun h => hf_flags (ph_name h) = 0 /\ (hf_bytes (ph_value h) <> [] -> hf_flags (ph_value h) = 0)) hs.
Proof. exact headers_request. Qed.
Print Assumptions C21_request_block.
(** On the response side the body must not begin with CR nor with a blank and a line ending. *)
Theorem C21_response_block : forall ls tail, Forall good_hline ls -> ls <> [] ->
  (forall r, tail <> 13 :: r) -> (forall b e r, sp_or_tab b -> e = 10 \/ e = 13 -> tail <> b :: e :: r) -> exists hs,
  h_headers SResp false (block_text ls ++ [13; 10] ++ tail) = Some (POk tail (hs, true)) /\
  map kv_of_ph hs = map kv_of ls /\
  Forall (fun h => hf_flags (ph_name h) = 0 /\ (hf_bytes (ph_value h) <> [] -> hf_flags (ph_value h) = 0)) hs.
Proof. exact headers_response. Qed.
Print Assumptions C21_response_block.
(** Without that condition body bytes are lost: the body of this response is SP LF x, and only x is left. *)
Theorem C21_response_tail_refuted : exists r hs,
  h_headers SResp false (s2b "A: b" ++ [13; 10; 13; 10] ++ [32; 10] ++ s2b "x") = Some (POk r (hs, true)) /\ r = s2b "x".
Proof. exact headers_response_tail. Qed.
Print Assumptions C21_response_tail_refuted.
Definition ex_lines : list hline :=
  [ {| hl_name := s2b "Host"; hl_pre := s2b " "; hl_value := s2b "a.example: 80"; hl_post := [] |};
    {| hl_name := s2b "X-E"; hl_pre := []; hl_value := []; hl_post := [] |} ].
Example C21_ex : Forall good_hline ex_lines /\
  block_text ex_lines = s2b "Host: a.example: 80" ++ [13; 10] ++ s2b "X-E:" ++ [13; 10].
Proof.
  split; [|vm_compute; reflexivity]. unfold ex_lines.
  assert (T : forall l, forallb (fun c => (33 <=? c) && (c <=? 126) && negb (memb c (s2b "()<>@,;:\/[]?={}" ++ [34]))) l = true -> Forall token_byte l).
  { intros l H. rewrite forallb_forall in H. apply Forall_forall. intros x Hx. specialize (H x Hx). unfold token_byte.
    apply andb_true_iff in H as [H1 H2]. split; [lia|]. intro Hi. unfold memb in H2.
    replace (existsb (N.eqb x) (s2b "()<>@,;:\/[]?={}" ++ [34])) with true in H2; [discriminate|].
    symmetry. apply existsb_exists. exists x. split; [assumption|apply N.eqb_refl]. }
  constructor; [|constructor; [|constructor]]; unfold good_hline; cbn [hl_name hl_pre hl_value hl_post].
  - split; [discriminate|]. split; [now apply T|]. split; [repeat constructor|]. split; [constructor|].
    split; [repeat constructor; discriminate|]. split; [intros x m E; vm_compute in E; injection E as <- _; unfold c_space, ascii_space; lia|].
    split; [|discriminate]. intros x m E. apply (f_equal (@rev N)) in E. rewrite rev_app_distr in E. vm_compute in E.
    injection E as <- _. unfold c_space, ascii_space; lia.
  - split; [discriminate|]. split; [now apply T|]. split; [constructor|]. split; [constructor|]. split; [constructor|].
    split; [discriminate|]. split; [now intros x [|]|reflexivity].
Qed.
(** Continuation lines are joined by the blank each begins with, and the value is marked as folded. *)
Theorem C21_request_folded : forall l cs tail, good_hline l -> hl_value l <> [] -> cs <> [] ->
  Forall (fun c => sp_or_tab (fst c) /\ Forall (fun x => x <> 13 /\ x <> 10) (snd c)) cs -> exists h,
  h_headers SReq false (hl_name l ++ s2b ":" ++ hl_pre l ++ hl_value l ++ hl_post l ++ fold_text cs ++ [13; 10] ++ [13; 10] ++ tail)
    = Some (POk tail ([h], true)) /\
  kv_of_ph h = (hl_name l, trimmed (hl_value l ++ hl_post l ++ folds_value cs)) /\
  hf_flags (ph_name h) = 0 /\ hf_flags (ph_value h) = HF_FOLDING.
Proof. exact folded_request. Qed.
Print Assumptions C21_request_folded.
Theorem C21_response_folded : forall l cs tail, good_hline l -> hl_value l <> [] -> cs <> [] ->
  Forall (fun c => sp_or_tab (fst c) /\ Forall (fun x => x <> 13 /\ x <> 10 /\ x <> 58) (snd c)) cs ->
  (forall r, tail <> 13 :: r) -> (forall b e r, sp_or_tab b -> e = 10 \/ e = 13 -> tail <> b :: e :: r) -> exists h,
  h_headers SResp false (hl_name l ++ s2b ":" ++ hl_pre l ++ hl_value l ++ hl_post l ++ fold_text cs ++ [13; 10] ++ [13; 10] ++ tail)
    = Some (POk tail ([h], true)) /\
  kv_of_ph h = (hl_name l, trimmed (hl_value l ++ hl_post l ++ folds_value cs)) /\
  hf_flags (ph_name h) = 0 /\ hf_flags (ph_value h) = HF_FOLDING.
Proof. exact folded_response. Qed.
Print Assumptions C21_response_folded.
(** Names that are not tokens: blanks around them are removed and marked, and LF SP may fold them. *)
Theorem C21_request_odd_name : forall n l tail, good_hline l -> name_ok n -> n <> [] -> exists h,
  h_headers SReq false (n ++ s2b ":" ++ hl_pre l ++ hl_value l ++ hl_post l ++ [13; 10] ++ [13; 10] ++ tail) = Some (POk tail ([h], true)) /\
  kv_of_ph h = (trimmed n, hl_value l) /\
  (fis_set (hf_flags (ph_name h)) HF_NAME_LEADING_WHITESPACE = true <-> exists b n', n = b :: n' /\ sp_or_tab b) /\
  (fis_set (hf_flags (ph_name h)) HF_NAME_TRAILING_WHITESPACE = true <-> exists b n', n = n' ++ [b] /\ sp_or_tab b).
Proof. exact odd_name_request. Qed.
Print Assumptions C21_request_odd_name.
Example C21_odd_ex : name_ok (s2b " X" ++ [10] ++ s2b " Y ") /\
  fold_text [(32, s2b "b"); (9, s2b "c: d")] = [13; 10] ++ s2b " b" ++ [13; 10; 9] ++ s2b "c: d".
Proof.
  split; [|reflexivity]. cbn [s2b app N_of_ascii N_of_digits]. repeat (first [apply no_nil | apply no_byte; [easy|easy|] | apply no_fold]).
Qed.

(** * C23 *)
Theorem C23_total_suffix_progress : forall sd cm i, exists q, h_headers sd cm i = Some q /\
  (forall r hs eoh, q = POk r (hs, eoh) -> hs <> [] /\ exists p, p <> [] /\ i = p ++ r).
Proof. exact headers_total. Qed.
Print Assumptions C23_total_suffix_progress.
Example C23_ex : exists r hs, h_headers SReq false (s2b "a b" ++ [10] ++ s2b " c" ++ [10] ++ s2b "d:") = Some (POk r (hs, false)) /\
  r = s2b "d:" /\ length hs = 1%nat.
Proof. eexists _, _. split; [vm_compute; reflexivity|]. split; reflexivity. Qed.
