(** Vocabulary of the property statements about header tables and callback lists. Nothing here refers to the model's
    functions; [answer], [callback] and [status] are data types. *)
From Verif Require Import Base Spec ModelHook.

(** * C24: header lines [(name, value)] *)
Definition hline2 : Type := bytes * bytes.
(** The same name, up to the case of letters. *)
Definition same (a b : hline2) : bool := bytes_eqb (lowers (fst a)) (lowers (fst b)).
Definition uses (x : hline2) (l : list hline2) : nat := length (filter (same x) l).
(** Lines that are at least the third with their name ([seen] comes before [l]). *)
Fixpoint extra (seen l : list hline2) : nat :=
  match l with
  | [] => 0
  | x :: r => (if (2 <=? uses x seen)%nat then 1 else 0) + extra (seen ++ [x]) r
  end.
(** The lines that count: the first two of a name always do, after that only while fewer than 64 extra ones have been kept. *)
Definition keep (k : list hline2) (x : hline2) : list hline2 :=
  if ((uses x k <? 2) || (extra [] k <? 64))%nat then k ++ [x] else k.
Definition kept (l : list hline2) : list hline2 := fold_left keep l [].
(** The first line of every name, in order. *)
Definition leader (k : list hline2) (x : hline2) : list hline2 := if existsb (same x) k then k else k ++ [x].
Definition leaders (l : list hline2) : list hline2 := fold_left leader l [].
(** The table entry of a name: all its values, or for Content-Length the first one; and whether it is marked as repeated. *)
Definition entry (l : list hline2) (x : hline2) : bytes * bytes * bool :=
  let vs := map snd (filter (same x) l) in
  (fst x, if same x (s2b "content-length", []) then hd [] vs else join (s2b ", ") vs, (2 <=? length vs)%nat).
Definition merged_table (l : list hline2) : list (bytes * bytes * bool) := map (entry (kept l)) (leaders l).
(** A name without white space at either end. *)
Definition tight (n : bytes) : Prop :=
  (forall x m, n = x :: m -> ~ ascii_space x) /\ (forall x m, n = m ++ [x] -> ~ ascii_space x).

(** * C29: what one callback answers in a state, and the state it leaves *)
Definition passes {S} (c : callback S) (s s' : S) : Prop :=
  match c with
  | External f => exists x, f s = (x, s') /\ (x = SOk \/ x = SDeclined)
  | Native f => f s = (AnsOk, s') \/ f s = (AnsErr SDeclined, s')
  end.
Definition fails {S} (c : callback S) (s : S) (x : status) (s' : S) : Prop :=
  match c with
  | External f => f s = (x, s') /\ x <> SOk /\ x <> SDeclined
  | Native f => f s = (AnsErr x, s') /\ x <> SDeclined
  end.
(** All of them pass, one after the other. *)
Fixpoint all_pass {S} (l : list (callback S)) (s s' : S) : Prop :=
  match l with
  | [] => s = s'
  | c :: r => exists s1, passes c s s1 /\ all_pass r s1 s'
  end.

(** * C26: header lookup and values *)
(** [h] is the first header named [k]; there is none. *)
Definition the_header (hs : list header) (k : bytes) (h : header) : Prop := first_such (fun x => hkey_matches (hd_name x) k) hs h.
Definition lacks (hs : list header) (k : bytes) : Prop := Forall (fun x => ~ hkey_matches (hd_name x) k) hs.
(** The word occurs in the value, case ignored and NUL bytes skipped. *)
Definition mentions (v w : bytes) : Prop := exists a x b, nonul v = a ++ x ++ b /\ name_eq x w.

(** * C30: which messages are issued at most once per transaction, and the flag that remembers it *)
Definition once_flag (c : string) : option N :=
  if existsb (String.eqb c) ["REQUEST_INVALID_LWS_AFTER_NAME"; "REQUEST_HEADER_INVALID"; "REQUEST_INVALID_EMPTY_NAME";
                             "RESPONSE_INVALID_LWS_AFTER_NAME"; "RESPONSE_HEADER_NAME_NOT_TOKEN"; "RESPONSE_INVALID_EMPTY_NAME"]%string
  then Some FIELD_INVALID
  else if existsb (String.eqb c) ["INVALID_REQUEST_FIELD_FOLDING"; "INVALID_RESPONSE_FIELD_FOLDING"]%string then Some INVALID_FOLDING
  else if existsb (String.eqb c) ["REQUEST_FIELD_MISSING_COLON"; "RESPONSE_FIELD_MISSING_COLON"]%string then Some FIELD_UNPARSEABLE
  else None.
Definition is_once (f : N) (m : logmsg) : bool := match once_flag (lg_code m) with Some g => f =? g | None => false end.

(** * Views of the data the theorems speak of *)
(** Name, value and FIELD_REPEATED flag of a table entry. *)
Definition view (h : header) : bytes * bytes * bool := (hd_name h, hd_value h, fis_set (hd_flags h) FIELD_REPEATED).
(** The bytes a table holds. *)
Definition stored (l : headers_tab) : nat := list_sum (map (fun h => length (hd_name h) + length (hd_value h))%nat l).
(** No entry carries the flag. *)
Definition clear_of (f : N) (l : headers_tab) : Prop := Forall (fun h => fis_set (hd_flags h) f = false) l.
(** The messages logged in a sequence of operations. *)
Definition issued (l : list logop) : list logmsg :=
  flat_map (fun o => match o with LogMsg lv c => [mk_log lv c] | _ => [] end) l.
