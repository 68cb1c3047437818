(** C77: the oddities of header fields, and how the transaction and the log tell them. *)
From Verif Require Import Base ModelUtil ModelHeaders ModelTx Spec SpecField.

Definition has_name (f : field) (n : bytes) : Prop := exists v more, named (f_line f) (f_cr f) (f_more f) n v more.
(** A field may have a blank before its colon, a blank before its name, a name that is not a token, or no name at all. *)
Inductive oddity := BlankAfter | BlankBefore | NotToken | NoName.
Definition oddities : list oddity := [BlankAfter; BlankBefore; NotToken; NoName].
Definition odd (f : field) (o : oddity) : Prop :=
  match o with
  | BlankAfter => exists n b, has_name f (n ++ [b]) /\ sp_or_tab b
  | BlankBefore => exists n b, has_name f (b :: n) /\ sp_or_tab b
  | NotToken => exists n, has_name f n /\ ~ token_name n
  | NoName => forall n, has_name f n -> n = []
  end.
(** The flag of the transaction an oddity raises, and the warning it gives. *)
Definition raises (o : oddity) : N :=
  match o with BlankAfter | NotToken => FIELD_INVALID | BlankBefore => INVALID_FOLDING | NoName => FIELD_UNPARSEABLE end.
Definition warns (sd : side) (o : oddity) : string :=
  match sd, o with
  | SReq, BlankAfter => "REQUEST_INVALID_LWS_AFTER_NAME"
  | SReq, BlankBefore => "INVALID_REQUEST_FIELD_FOLDING"
  | SReq, NotToken => "REQUEST_HEADER_INVALID"
  | SReq, NoName => "REQUEST_FIELD_MISSING_COLON"
  | SResp, BlankAfter => "RESPONSE_INVALID_LWS_AFTER_NAME"
  | SResp, BlankBefore => "INVALID_RESPONSE_FIELD_FOLDING"
  | SResp, NotToken => "RESPONSE_HEADER_NAME_NOT_TOKEN"
  | SResp, NoName => "RESPONSE_FIELD_MISSING_COLON"
  end.
(** Among the messages [l], those warning of an oddity that raises [flag]. *)
Definition warnings_of (sd : side) (flag : N) (l : list logmsg) : list logmsg :=
  filter (fun m => existsb (fun o => (raises o =? flag) && String.eqb (warns sd o) (lg_code m)) oddities) l.
(** The first oddity that raises [flag]: fields in order, and of one field in the order above. *)
Definition first_odd (fs : list field) (flag : N) (f : field) (o : oddity) : Prop :=
  first_such (fun p => odd (fst p) (snd p) /\ raises (snd p) = flag) (list_prod fs oddities) (f, o).
(** The flags a stored header carries for its own oddities; a response header is called invalid also for a blank before its
    name and for having no name. *)
Definition marks (sd : side) (o : oddity) : list N :=
  match sd, o with
  | SReq, _ => [raises o]
  | SResp, BlankBefore => [INVALID_FOLDING; FIELD_INVALID]
  | SResp, NoName => [FIELD_UNPARSEABLE; FIELD_INVALID]
  | SResp, _ => [raises o]
  end.
(** [own sd f fl]: of the flags for oddities, [fl] has exactly those of the field [f]. *)
Definition own (sd : side) (f : field) (fl : N) : Prop :=
  forall flag, In flag [FIELD_INVALID; INVALID_FOLDING; FIELD_UNPARSEABLE] ->
    (N.land fl flag <> 0 <-> exists o, odd f o /\ In flag (marks sd o)).
