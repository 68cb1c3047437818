(** Vocabulary of C69: every byte string read as UTF-8. *)
From Verif Require Import Base SpecDecode ModelUtil ModelBestfit.

(** [w] is a sequence of two, three or four bytes for the character [c]. Overlong sequences count, surrogates and characters above
    10FFFF do not. *)
Inductive char_of : bytes -> N -> Prop :=
| co2 k k1 : k < 32 -> k1 < 64 -> char_of [0xc0 + k; 0x80 + k1] (k1 + k * 64)
| co3 k k1 k2 : k < 16 -> k1 < 64 -> k2 < 64 -> (k = 13 -> k1 < 32) -> char_of [0xe0 + k; 0x80 + k1; 0x80 + k2] (k2 + (k1 + k * 64) * 64)
| co4 k k1 k2 k3 : k <= 4 -> k1 < 64 -> k2 < 64 -> k3 < 64 -> (k = 4 -> k1 < 16) ->
    char_of [0xf0 + k; 0x80 + k1; 0x80 + k2; 0x80 + k3] (k3 + (k2 + (k1 + k * 64) * 64) * 64).
(** The start of one, and a text that starts with none. *)
Definition begun (w : bytes) : Prop := w <> [] /\ exists s c, s <> [] /\ char_of (w ++ s) c.
Definition hopeless (w : bytes) : Prop := forall s c, ~ char_of (w ++ s) c.
(** The sequence is longer than its character needs. *)
Definition overlong (w : bytes) (c : N) : bool :=
  match length w with 2%nat => c <? 0x80 | 3%nat => c <? 0x800 | 4%nat => c <? 0x10000 | _ => false end.
Definition fit (m : bestfit_map) (c : N) : N := if c <? 0x100 then c else bestfit_get m c.

(** One piece: what it outputs, its flags, whether it is a character of several bytes, and the rest. *)
Inductive utf8_step (m : bestfit_map) : bytes -> bytes -> N -> bool -> bytes -> Prop :=
| us_ascii b r : b < 0x80 -> utf8_step m (b :: r) [b] 0 false r
| us_char w c r : char_of w c ->
    utf8_step m (w ++ r) [fit m c] (all_flags [on (overlong w c) PATH_UTF8_OVERLONG; on ((0xff00 <=? c) && (c <=? 0xffef)) PATH_HALF_FULL_RANGE]) true r
| us_stray b r : 0x80 <= b -> hopeless [b] -> utf8_step m (b :: r) [bm_repl m] PATH_UTF8_INVALID false r
(** an interrupted character: the byte that interrupts it is read again *)
| us_broken w b r : begun w -> hopeless (w ++ [b]) -> utf8_step m (w ++ b :: r) [bm_repl m] PATH_UTF8_INVALID false (b :: r)
(** the text ends inside a character: no flag, and one replacement less than there are bytes *)
| us_cut w : begun w -> utf8_step m w (repeat (bm_repl m) (length w - 1)) 0 false [].
Inductive utf8_read (m : bestfit_map) : bytes -> bytes -> list N -> bool -> Prop :=
| ur_nil : utf8_read m [] [] [] false
| ur_step i o f (v : bool) r out fl vs : utf8_step m i o f v r -> utf8_read m r out fl vs -> utf8_read m i (o ++ out) (f :: fl) (v || vs).
