(** Vocabulary of the property statements about decompression. *)
From Verif Require Import Base ModelState ModelConn ModelDecomp SpecConn.

(** * Runs *)
(** The calls of a program whose callbacks all succeed, and its result. *)
Fixpoint calls {A} (m : dm A) : list (option bytes) :=
  match m with DmRet _ | DmFuel => [] | DmCall d k => d :: calls (k true) end.
Fixpoint result {A} (m : dm A) : option A :=
  match m with DmRet a => Some a | DmFuel => None | DmCall _ k => result (k true) end.
(** The first callback that fails ends the program: nothing is called after it, and the result is [bad]. *)
Fixpoint ends_at_failure {A} (bad : A -> Prop) (m : dm A) : Prop :=
  match m with
  | DmRet _ | DmFuel => True
  | DmCall _ k => match k false with DmRet a => bad a | _ => False end /\ ends_at_failure bad (k true)
  end.
(** Every callback gets at most [n] bytes. *)
Fixpoint calls_within {A} (n : N) (m : dm A) : Prop :=
  match m with
  | DmRet _ | DmFuel => True
  | DmCall d k => match d with Some b => blen b <= n | None => True end /\ calls_within n (k true) /\ calls_within n (k false)
  end.
(** [decompress] on one segment after the other: the bytes the callbacks got; None unless every call succeeds. *)
Fixpoint delivered (r : raw) (lz : bool) (f : nat) (c : chain r) (cs : list bytes) : option (list (option bytes)) :=
  match cs with
  | [] => Some []
  | b :: cs => match result (decompress r lz f c b) with
               | Some (IoOk _, c') => option_map (app (calls (decompress r lz f c b))) (delivered r lz f c' cs)
               | _ => None
               end
  end.
(** The same, and then the end of the body. *)
Fixpoint delivered_whole (r : raw) (lz : bool) (f : nat) (c : chain r) (cs : list bytes) : option (list (option bytes)) :=
  match cs with
  | [] => match result (c_finish r lz f c) with Some (IoOk _) => Some (calls (c_finish r lz f c)) | _ => None end
  | b :: cs => match result (decompress r lz f c b) with
               | Some (IoOk _, c') => option_map (app (calls (decompress r lz f c b))) (delivered_whole r lz f c' cs)
               | _ => None
               end
  end.
Definition joined (l : list (option bytes)) : bytes := flat_map (fun d => match d with Some b => b | None => [] end) l.

(** * Decoders *)
(** A decoder of the crates does its work: [D x] is what the compressed stream [x] stands for so far, [V] are the streams without
    errors, [E] those that may end where they end. [rep s x y]: in state [s] the decoder has taken [x] and has put [y] into its buffer, all in all. A full buffer
    ([IoWriteZero]) is reported only with something in it; nothing is taken (0) only at the end of the stream, where anything may
    follow; a flush that succeeds leaves nothing behind, and then finishing yields nothing more. *)
Record decodes (r : raw) (k : rawkind) (D : bytes -> bytes) (V E : bytes -> Prop) (rep : rw_st r -> bytes -> bytes -> Prop) : Prop := {
  dec_start : D [] = [] /\ V [];
  dec_prefix : forall x z, exists w, D (x ++ z) = D x ++ w;
  dec_valid : forall x z, V (x ++ z) -> V x;
  dec_new : rep (rw_new r k) [] [] /\ rw_buf r (rw_new r k) = Some [];
  dec_rep : forall s x y, rep s x y -> exists w, D x = y ++ w;
  dec_write : forall s x y b d, rep s x y -> rw_buf r s = Some b -> d <> [] -> V (x ++ d) ->
    match rw_write r s d with
    | (IoOk n, s') => n <= blen d /\
        (exists o, rep s' (x ++ firstn (N.to_nat n) d) (y ++ o) /\ rw_buf r s' = Some (b ++ o)) /\
        (n = 0 -> forall z, D (x ++ z) = D x /\ V (x ++ z) /\ E (x ++ z))
    | (IoErr IoWriteZero, s') => exists o, rep s' x (y ++ o) /\ rw_buf r s' = Some (b ++ o) /\ b ++ o <> []
    | (IoErr IoOther, _) => False
    end;
  dec_flush : forall s x y b, rep s x y -> rw_buf r s = Some b -> V x ->
    match rw_flush r s with
    | (IoOk _, s') => exists o, rep s' x (y ++ o) /\ rw_buf r s' = Some (b ++ o) /\ y ++ o = D x
    | (IoErr IoWriteZero, s') => exists o, rep s' x (y ++ o) /\ rw_buf r s' = Some (b ++ o) /\ b ++ o <> []
    | (IoErr IoOther, _) => False
    end;
  dec_clear : forall s x y b, rep s x y -> rw_buf r s = Some b -> rep (rw_clear r s) x y /\ rw_buf r (rw_clear r s) = Some [];
  dec_finish : forall s x, rep s x (D x) -> rw_buf r s = Some [] -> E x -> rw_finish r s = IoOk []
}.
(** A decoder rejects [d] outright. *)
Definition rejects (r : raw) (k : rawkind) (d : bytes) : Prop := fst (rw_write r (rw_new r k) d) = IoErr IoOther.
(** The decoders' buffers hold at most [n] bytes (8192 in the code). *)
Definition buffers_within (n : N) (r : raw) : Prop :=
  (forall s b, rw_buf r s = Some b -> blen b <= n) /\ (forall s b, rw_finish r s = IoOk b -> blen b <= n).

(** * The gzip header (RFC 1952) *)
Record gzhead := mk_gzhead {
  gh_fixed : bytes;            (** MTIME, XFL, OS: six bytes *)
  gh_text : bool; gh_reserved : N;  (** FTEXT and the reserved bits *)
  gh_extra : option bytes; gh_name : option bytes; gh_comment : option bytes; gh_crc : option (N * N)
}.
Definition bit (b : bool) (n : N) : N := if b then n else 0.
Definition given {A} (o : option A) : bool := match o with Some _ => true | None => false end.
Definition gh_flags (h : gzhead) : N :=
  bit (gh_text h) 1 + bit (given (gh_crc h)) 2 + bit (given (gh_extra h)) 4 + bit (given (gh_name h)) 8 +
  bit (given (gh_comment h)) 16 + 32 * gh_reserved h.
Definition zeroed (o : option bytes) : bytes := match o with Some b => b ++ [0] | None => [] end.
Definition gh_bytes (h : gzhead) : bytes :=
  [31; 139; 8; gh_flags h] ++ gh_fixed h ++
  match gh_extra h with Some b => [blen b mod 256; blen b / 256] ++ b | None => [] end ++
  zeroed (gh_name h) ++ zeroed (gh_comment h) ++
  match gh_crc h with Some (a, b) => [a; b] | None => [] end.
Definition good_gzhead (h : gzhead) : Prop :=
  blen (gh_fixed h) = 6 /\ gh_reserved h < 8 /\
  (forall b, gh_extra h = Some b -> blen b < 65536) /\
  (forall b, gh_name h = Some b \/ gh_comment h = Some b -> ~ In 0 b).
(** Neither of the two-byte fields. *)
Definition plain_gzhead (h : gzhead) : Prop := gh_extra h = None /\ gh_crc h = None.

(** A stream that starts with the header [h]: what it stands for, and the streams without errors. *)
Definition gz_decoded (h : gzhead) (D : bytes -> bytes) (x : bytes) : bytes := D (skipn (length (gh_bytes h)) x).
Definition gz_valid (h : gzhead) (V : bytes -> Prop) (x : bytes) : Prop :=
  V (skipn (length (gh_bytes h)) x) /\ exists z, gh_bytes h = x ++ z \/ x = gh_bytes h ++ z.
Definition gz_may_end (h : gzhead) (E : bytes -> Prop) (x : bytes) : Prop := E (skipn (length (gh_bytes h)) x).
(** The stream is not cut inside a two-byte field: the length of the extra field is at offset 10, the CRC ends the header. *)
Definition gz_cut_ok (h : gzhead) (x : bytes) : Prop :=
  (gh_extra h <> None -> length x <> 11%nat) /\ (gh_crc h <> None -> (length x + 1 <> length (gh_bytes h))%nat).

(** * Layers *)
(** What a layer of encoding [ce] makes of a stream: the decoder does its work, behind the header in the case of gzip. *)
Inductive layer_decodes (r : raw) (lz : bool) : cenc -> (bytes -> bytes) -> (bytes -> Prop) -> (bytes -> Prop) -> Prop :=
| ld_deflate D V E rep : decodes r RkDeflate D V E rep -> layer_decodes r lz CeDeflate D V E
| ld_zlib D V E rep : decodes r RkZlib D V E rep -> layer_decodes r lz CeZlib D V E
| ld_lzma D V E rep : lz = true -> decodes r RkLzma D V E rep -> layer_decodes r lz CeLzma D V E
| ld_gzip D V E rep h : good_gzhead h -> plain_gzhead h -> decodes r RkDeflate D V E rep ->
    layer_decodes r lz CeGzip (gz_decoded h D) (gz_valid h V) (gz_may_end h E).
(** Layers, outermost first, as a whole. Without lzma a layer of it does nothing. *)
Inductive layers_decode (r : raw) (lz : bool) : list cenc -> (bytes -> bytes) -> (bytes -> Prop) -> (bytes -> Prop) -> Prop :=
| lsd_nil : layers_decode r lz [] (fun x => x) (fun _ => True) (fun _ => True)
| lsd_cons ce ces D V E D' V' E' : layer_decodes r lz ce D V E -> layers_decode r lz ces D' V' E' ->
    layers_decode r lz (ce :: ces) (fun x => D' (D x)) (fun x => V x /\ V' (D x)) (fun x => E x /\ E' (D x))
| lsd_off ces D V E : lz = false -> layers_decode r lz ces D V E -> layers_decode r lz (CeLzma :: ces) D V E.
Definition new_chain (r : raw) (lz : bool) (ces : list cenc) : chain r := fold_right (prepend r lz) (Sink r) ces.

(** * Decompressors in a connection *)
(** A decompressor run, as the connection sees it: the first callback that fails ends it with a failure; callbacks get at most
    [n] bytes. *)
Fixpoint run_ends (t : dtree) : Prop :=
  match t with DRet _ _ => True | DCall _ k => (exists slow, k false = DRet false slow) /\ run_ends (k true) end.
Fixpoint run_within (n : N) (t : dtree) : Prop :=
  match t with
  | DRet _ _ => True
  | DCall d k => opt_len d <= n /\ run_within n (k true) /\ run_within n (k false)
  end.
(** Decompressors with an output buffer of [n] bytes. *)
Definition orderly (n : N) (e : env) : Prop :=
  forall s dc d, run_ends (e_codec e s dc d) /\ run_within (N.max n (opt_len d)) (e_codec e s dc d).
(** The body bytes that the callbacks of a hook got for a transaction. *)
Definition hook_eqb (a b : hook) : bool := if (ltac:(decide equality) : {a = b} + {a <> b}) then true else false.
Definition body_bytes (h : hook) (i : N) (s : st) : N :=
  fold_right (fun ev n => (if hook_eqb (ev_hook (fst ev)) h && (ev_tx (fst ev) =? i) then payload_len (ev_data (fst ev)) else 0) + n) 0 (s_trace s).
(** The body of a message, in pieces: the connection parser gives each to the decompressors or the callbacks until one fails. *)
Definition body_pieces (sd : side) (bs : list bytes) : M unit := for_each (fun b => body_data sd (Some b)) bs.
Definition total_len (bs : list bytes) : N := fold_right (fun b n => blen b + n) 0 bs.

(** * Layers of a message *)
Definition layers_of (d : txdir) : list cenc := match t_dec d with Some dc => dc_layers dc | None => [] end.
Definition is_lzma (ce : cenc) : bool := match ce with CeLzma => true | _ => false end.
Definition enc_count (p : cenc -> bool) (l : list cenc) : N := N.of_nat (length (filter p l)).

(** * Data no decoder wants *)
(** Neither the beginning of a gzip header nor something that begins with one. *)
Definition not_gzip (d : bytes) : Prop := forall z, [31; 139; 8] <> d ++ z /\ d <> [31; 139; 8] ++ z.
(** Each layer has restarted at most [n] times. *)
Fixpoint restarts_within (r : raw) (n : N) (c : chain r) : Prop :=
  match c with
  | Sink _ => True
  | Layer _ l inner => l_restarts r l <= n /\ match inner with Some c => restarts_within r n c | None => True end
  end.

(** * What the callbacks got *)
(** What a hook's callbacks got for a transaction, in order; and the body bytes among it. *)
Definition got (h : hook) (i : N) (s : st) : list payload := map ev_data (filter (fun ev => hook_eqb (ev_hook ev) h && (ev_tx ev =? i)) (events s)).
Definition body_of (h : hook) (i : N) (s : st) : bytes := flat_map (fun p => match p with PlData b => b | _ => [] end) (got h i s).
(** The decompressors of a message with these content encodings before any of its body has come. *)
Definition fresh_decomp (ces : list cenc) : decomp := map DoLayer ces.
(** The callbacks of bodies succeed. *)
Definition takes_bodies (e : env) : Prop := forall s ev, body_hook (ev_hook ev) = true -> e_cb e s ev = SOk \/ e_cb e s ev = SDeclined.
(** A body in pieces and then its end, which comes whether or not the pieces went well. *)
Definition whole_body (sd : side) (bs : list bytes) : M unit := ignore (body_pieces sd bs) ;; ignore (body_data sd None).
(** A decompressor that was fed [cs], each in time. *)
Definition fed (cs : list bytes) (dc : decomp) : decomp := rev (map (fun b => DoFeed b false) cs) ++ dc.
(** How often a decompressor was fed. *)
Definition feeds (dc : decomp) : nat := length (filter (fun o => match o with DoFeed _ _ => true | DoLayer _ => false end) dc).
