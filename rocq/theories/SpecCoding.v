(** C78: the codings a Content-Encoding header names. *)
From Verif Require Import Base ModelUtil ModelHeaders ModelState ModelTx Spec SpecBytes SpecDecomp.

(** The whole value may name one coding, or none at all, up to letter case and NUL bytes. *)
Definition is_word (v : bytes) (s : string) : Prop := name_eq (nonul v) (s2b s).
Inductive alone (v : bytes) : option cenc -> Prop :=
  | al_gzip : is_word v "gzip" \/ is_word v "x-gzip" -> alone v (Some CeGzip)
  | al_deflate : is_word v "deflate" \/ is_word v "x-deflate" -> alone v (Some CeDeflate)
  | al_lzma : is_word v "lzma" -> alone v (Some CeLzma)
  | al_none : is_word v "inflate" \/ is_word v "none" -> alone v None.

(** Otherwise it is a list of words between commas and spaces. *)
Definition separates (b : N) : Prop := b = 44 \/ b = 32.
Inductive words : bytes -> list bytes -> Prop :=
  | wo_end v : Forall separates v -> words v []
  | wo_word s w r ws : Forall separates s -> w <> [] -> Forall (fun b => ~ separates b) w ->
      (r = [] \/ exists b r', r = b :: r' /\ separates b) -> words r ws -> words (s ++ w ++ r) (w :: ws).

(** The coding a word of the list means. *)
Definition has_inside (w : bytes) (s : string) : Prop := exists i, occurs_at w (s2b s) i.
Inductive means (w : bytes) : option cenc -> Prop :=
  | me_gzip : has_inside w "gzip" -> means w (Some CeGzip)
  | me_deflate : ~ has_inside w "gzip" -> has_inside w "deflate" -> means w (Some CeDeflate)
  | me_lzma : w = s2b "lzma" -> means w (Some CeLzma)
  | me_other : ~ has_inside w "gzip" -> ~ has_inside w "deflate" -> w <> s2b "lzma" -> means w None.
(** The words that are given no warning. *)
Definition usual (w : bytes) : Prop :=
  In w (map s2b ["gzip"; "x-gzip"; "deflate"; "x-deflate"; "lzma"; "inflate"; "none"]%string).

(** The limits: a word is [in_layers] if it is not beyond the limit on words; a word "lzma" is [in_lzma] if it is not beyond the
    limit for lzma, which in a request counts all words up to it, in a response those that are "lzma". *)
Definition within (limit : option N) (n : nat) : Prop := forall m, limit = Some m -> N.of_nat n <= m.
Fixpoint lzmas (a : list bytes) : nat := match a with [] => 0 | w :: r => (if bytes_eqb w (s2b "lzma") then 1 else 0) + lzmas r end.
Definition in_layers (cfg : config) (a : list bytes) : Prop := within (c_layer_limit cfg) (S (length a)).
Definition in_lzma (sd : side) (cfg : config) (a : list bytes) (w : bytes) : Prop :=
  w = s2b "lzma" -> within (c_lzma_layers cfg) (match sd with SReq => S (length a) | SResp => S (lzmas a) end).

(** [taken sd cfg ws a lg]: of the words [ws] those in [a] are used, up to the first one beyond a limit; [lg] is what is logged. *)
Inductive abnormal : list bytes -> list logmsg -> Prop :=
  | ab_nil : abnormal [] []
  | ab_usual w a lg : usual w -> abnormal a lg -> abnormal (w :: a) lg
  | ab_odd w a lg : ~ usual w -> abnormal a lg -> abnormal (w :: a) (warning "ABNORMAL_CE_HEADER" :: lg).
Inductive stops (sd : side) (cfg : config) (a : list bytes) : list bytes -> list logmsg -> Prop :=
  | st_end : stops sd cfg a [] []
  | st_layers w b : ~ in_layers cfg a -> stops sd cfg a (w :: b) [warning "TOO_MANY_ENCODING_LAYERS"]
  | st_lzma w b : in_layers cfg a -> ~ in_lzma sd cfg a w ->
      stops sd cfg a (w :: b) [warning (match sd with SReq => "REQUEST_TOO_MANY_LZMA_LAYERS" | SResp => "RESPONSE_TOO_MANY_LZMA_LAYERS" end)].
Definition taken (sd : side) (cfg : config) (ws a : list bytes) (lg : list logmsg) : Prop :=
  exists b lg1 lg2, ws = a ++ b /\ (forall x w y, a = x ++ w :: y -> in_layers cfg x /\ in_lzma sd cfg x w) /\
    abnormal a lg1 /\ stops sd cfg a b lg2 /\ lg = lg1 ++ lg2.

(** The codings of the words used, in the order they are listed. *)
Inductive codings : list bytes -> list cenc -> Prop :=
  | co_nil : codings [] []
  | co_some w a c cs : means w (Some c) -> codings a cs -> codings (w :: a) (c :: cs)
  | co_none w a cs : means w None -> codings a cs -> codings (w :: a) cs.
