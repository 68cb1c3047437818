(** Model of src/decompressors.rs: the gzip header machine, the layers, the chain. The decoders themselves (flate2 and lzma-rs) are a
    parameter; time is a parameter. *)
From Verif Require Import Base ModelUtil ModelState ModelTx.

(** [std::io::Error], by kind: the code only distinguishes [ErrorKind::WriteZero]. [Interrupted] does not occur. *)
Inductive ioerr := IoWriteZero | IoOther.
Inductive ior (A : Type) := IoOk (a : A) | IoErr (x : ioerr).
Arguments IoOk {A}. Arguments IoErr {A}.

(** The decoders of the crates, each writing to a buffer of fixed size: flate2::write::DeflateDecoder, flate2::write::ZlibDecoder and
    lzma_rs::decompress::Stream over [Cursor<Box<[u8]>>]. [rw_buf]: the bytes in the buffer ([get_mut] and [position]; None where
    [get_mut] is); [rw_clear]: [set_position(0)]. *)
Inductive rawkind := RkDeflate | RkZlib | RkLzma.
Record raw := mk_raw {
  rw_st : Type;
  rw_new : rawkind -> rw_st;
  rw_write : rw_st -> bytes -> ior N * rw_st;
  rw_flush : rw_st -> ior unit * rw_st;
  rw_buf : rw_st -> option bytes;
  rw_clear : rw_st -> rw_st;
  rw_finish : rw_st -> ior bytes
}.

(** Programs that call the data callback: [DmCall d k] calls it with [d] and goes on according to whether it succeeded. [DmFuel]: the
    fuel of the model ran out. *)
Inductive dm (A : Type) := DmRet (a : A) | DmCall (d : option bytes) (k : bool -> dm A) | DmFuel.
Arguments DmRet {A}. Arguments DmCall {A}. Arguments DmFuel {A}.
Fixpoint dbind {A B} (m : dm A) (f : A -> dm B) : dm B :=
  match m with
  | DmRet a => f a
  | DmCall d k => DmCall d (fun ok => dbind (k ok) f)
  | DmFuel => DmFuel
  end.

(** * The gzip header: src/decompressors.rs:401-596 *)
(** 402-411 *)
Inductive gzstate := GzStart | GzXlen | GzExtra | GzFilename | GzComment | GzCrc | GzAfterHeader.
Definition FHCRC : N := 2.
Definition FEXTRA : N := 4.
Definition FNAME : N := 8.
Definition FCOMMENT : N := 16.
(** nom's [le_u16] *)
Definition le_u16 (b : bytes) : option (N * bytes) := match b with x :: y :: r => Some (x + 256 * y, r) | _ => None end.
(** [take_until(b"\0")] followed by [tag(b"\0")]: what is behind the first NUL. *)
Fixpoint after_nul (b : bytes) : option bytes :=
  match b with [] => None | c :: r => if c =? 0 then Some r else after_nul r end.
(** 440-448, [parse_start]: the flags and what is behind the ten bytes; None: incomplete. *)
Inductive gzstart := GsOk (flags : N) (rest : bytes) | GsIncomplete | GsError.
Definition parse_start (b : bytes) : gzstart :=
  match b with
  | [] => GsIncomplete
  | 31 :: [] => GsIncomplete
  | 31 :: 139 :: [] => GsIncomplete
  | 31 :: 139 :: 8 :: r => match r with
                           | fl :: _ :: _ :: _ :: _ :: _ :: _ :: rest => GsOk fl rest
                           | _ => GsIncomplete
                           end
  | _ => GsError
  end.

Section Decompressor.
Variable r : raw.
(** Whether lzma is enabled ([Options::lzma] is Some). *)
Variable lz : bool.

(** 421-438, [GzipBufWriter] *)
Record gz := mk_gz { gz_buf : bytes; gz_flags : N; gz_xlen : N; gz_inner : rw_st r; gz_state : gzstate }.
Definition gz_new : gz := mk_gz [] 0 0 (rw_new r RkDeflate) GzStart.
Definition gz_goto (s : gzstate) (g : gz) : gz := mk_gz (gz_buf g) (gz_flags g) (gz_xlen g) (gz_inner g) s.
Definition has (fl : N) (g : gz) : bool := negb (N.land (gz_flags g) fl =? 0).
(** 452-591, [write], with one function per state; [n] is [data.len()] and [p] is [parse]. *)
(** 566-585: after the header the call returns *)
Definition gz_crc (n : N) (g : gz) (p : bytes) : ior N * gz :=
  if has FHCRC g then
    match le_u16 p with
    | Some (_, rest) => (IoOk (n - blen rest), gz_goto GzAfterHeader g)
    | None => (IoOk (n - blen p), g)
    end
  else (IoOk (n - blen p), gz_goto GzAfterHeader g).
(** 543-565 *)
Definition gz_comment (n : N) (g : gz) (p : bytes) : ior N * gz :=
  if has FCOMMENT g then
    match after_nul p with
    | Some rest => gz_crc n (gz_goto GzCrc g) rest
    | None => (IoOk n, g)
    end
  else gz_crc n (gz_goto GzCrc g) p.
(** 520-542 *)
Definition gz_filename (n : N) (g : gz) (p : bytes) : ior N * gz :=
  if has FNAME g then
    match after_nul p with
    | Some rest => gz_comment n (gz_goto GzComment g) rest
    | None => (IoOk n, g)
    end
  else gz_comment n (gz_goto GzComment g) p.
(** 510-519 *)
Definition gz_extra (n : N) (g : gz) (p : bytes) : ior N * gz :=
  if 0 <? gz_xlen g then
    if blen p <? gz_xlen g
    then (IoOk n, mk_gz (gz_buf g) (gz_flags g) (gz_xlen g - blen p) (gz_inner g) (gz_state g))
    else gz_filename n (gz_goto GzFilename g) (skipn (N.to_nat (gz_xlen g)) p)
  else gz_filename n (gz_goto GzFilename g) p.
(** 490-509 *)
Definition gz_xlen_step (n : N) (g : gz) (p : bytes) : ior N * gz :=
  if has FEXTRA g then
    match le_u16 p with
    | Some (x, rest) => gz_extra n (mk_gz (gz_buf g) (gz_flags g) x (gz_inner g) GzExtra) rest
    | None => (IoOk (n - blen p), g)
    end
  else gz_extra n (gz_goto GzExtra g) p.
(** 452-591 *)
Definition gz_write (g : gz) (data : bytes) : ior N * gz :=
  let n := blen data in
  match gz_state g with
  | GzStart =>
      let all := gz_buf g ++ data in
      let g := mk_gz all (gz_flags g) (gz_xlen g) (gz_inner g) GzStart in
      match parse_start all with
      | GsOk fl rest => gz_xlen_step n (mk_gz all fl (gz_xlen g) (gz_inner g) GzXlen) rest
      | GsIncomplete => (IoOk n, g)
      | GsError => (IoErr IoOther, g)
      end
  | GzXlen => gz_xlen_step n g data
  | GzExtra => gz_extra n g data
  | GzFilename => gz_filename n g data
  | GzComment => gz_comment n g data
  | GzCrc => gz_crc n g data
  | GzAfterHeader => let '(x, i) := rw_write r (gz_inner g) data in (x, mk_gz (gz_buf g) (gz_flags g) (gz_xlen g) i (gz_state g))
  end.

(** * The writers: 368-400, 593-683, [BufWriter] and its implementations *)
Inductive writer := WGz (g : gz) | WRaw (s : rw_st r) | WNull.
Definition wr_write (w : writer) (data : bytes) : ior N * writer :=
  match w with
  | WGz g => let '(x, g) := gz_write g data in (x, WGz g)
  | WRaw s => let '(x, s) := rw_write r s data in (x, WRaw s)
  | WNull => (IoOk 0, WNull)
  end.
Definition gz_with (g : gz) (i : rw_st r) : gz := mk_gz (gz_buf g) (gz_flags g) (gz_xlen g) i (gz_state g).
Definition wr_flush (w : writer) : ior unit * writer :=
  match w with
  | WGz g => let '(x, i) := rw_flush r (gz_inner g) in (x, WGz (gz_with g i))
  | WRaw s => let '(x, s) := rw_flush r s in (x, WRaw s)
  | WNull => (IoOk tt, WNull)
  end.
Definition wr_buf (w : writer) : option bytes :=
  match w with WGz g => rw_buf r (gz_inner g) | WRaw s => rw_buf r s | WNull => Some [] end.
Definition wr_clear (w : writer) : writer :=
  match w with WGz g => WGz (gz_with g (rw_clear r (gz_inner g))) | WRaw s => WRaw (rw_clear r s) | WNull => WNull end.
Definition wr_finish (w : writer) : ior bytes :=
  match w with WGz g => rw_finish r (gz_inner g) | WRaw s => rw_finish r s | WNull => IoOk [] end.

(** * One layer: 685-699, [InnerDecompressor], without [inner] and [options] *)
Record layer := mk_layer { l_writer : option writer; l_enc : cenc; l_pass : bool; l_restarts : N }.
(** The chain: [Sink] is the [CallbackWriter] (165-196); a layer whose [inner] was lost has None. *)
Inductive chain := Sink | Layer (l : layer) (inner : option chain).
Definition with_writer (w : option writer) (l : layer) : layer := mk_layer w (l_enc l) (l_pass l) (l_restarts l).
Definition with_pass (p : bool) (l : layer) : layer := mk_layer (l_writer l) (l_enc l) p (l_restarts l).
(** 702-736; None: an error *)
Definition new_writer (ce : cenc) : option (writer * bool) :=
  match ce with
  | CeGzip => Some (WGz gz_new, false)
  | CeDeflate => Some (WRaw (rw_new r RkDeflate), false)
  | CeZlib => Some (WRaw (rw_new r RkZlib), false)
  | CeLzma => if lz then Some (WRaw (rw_new r RkLzma), false) else Some (WNull, true)
  | CeNone | CeError => None
  end.
(** 740-754, and 275-290, [Decompressor::prepend] *)
Definition prepend (ce : cenc) (c : chain) : chain :=
  match new_writer ce with
  | Some (w, p) => Layer (mk_layer (Some w) ce p 0) (Some c)
  | None => c
  end.
(** 887-915; None: an error *)
Definition restart (l : layer) : option layer :=
  if l_restarts l <? 3 then
    match match l_enc l with
          | CeGzip => Some CeDeflate | CeDeflate => Some CeZlib | CeZlib => Some CeGzip | CeLzma => Some CeDeflate
          | CeNone | CeError => None
          end with
    | Some ce => match new_writer ce with
                 | Some (w, p) => Some (mk_layer (Some w) ce (p || l_pass l) (l_restarts l + 1))
                 | None => None
                 end
    | None => None
    end
  else None.
(** 919-924 *)
Fixpoint set_passthrough (p : bool) (c : chain) : chain :=
  match c with
  | Sink => Sink
  | Layer l i => Layer (with_pass p l) (match i with Some c => Some (set_passthrough p c) | None => None end)
  end.

(** 815-871 [write], 759-770 [try_passthrough]; std's [write_all]; 776-811 [flush_writer] once the inner decompressor is taken. *)
Fixpoint c_write (f : nat) (c : chain) (data : bytes) : dm (ior N * chain) :=
  match f with
  | O => DmFuel
  | S f =>
      match c with
      | Sink => DmCall (Some data) (fun ok => DmRet (if ok then IoOk (blen data) else IoErr IoOther, Sink))
      | Layer l inner =>
          if l_pass l then
            match inner with
            | Some i => dbind (c_write f i data) (fun '(x, i) => DmRet (x, Layer l (Some i)))
            | None => DmRet (IoOk (blen data), c)
            end
          else
            match l_writer l with
            | None => DmRet (IoErr IoWriteZero, c)
            | Some w =>
                let l := with_writer None l in
                match wr_write w data with
                | (IoOk n, w) => DmRet (IoOk (if n =? 0 then blen data else n), Layer (with_writer (Some w) l) inner)
                | (IoErr IoWriteZero, w) =>
                    dbind (match inner with Some i => flush_writer f l i w | None => DmRet (IoErr IoOther, l, None) end)
                      (fun '(x, l, inner) =>
                         match x with
                         | IoOk w => c_write f (Layer (with_writer (Some w) l) inner) data
                         | IoErr e => DmRet (IoErr e, Layer l inner)
                         end)
                | (IoErr IoOther, _) =>
                    match restart l with
                    | Some l => c_write f (Layer l inner) data
                    | None =>
                        let l := with_pass true l in
                        match inner with
                        | Some i =>
                            dbind (c_write f (set_passthrough true i) data) (fun '(x, i) =>
                              DmRet (x, match x with
                                        | IoOk _ => Layer l (Some i)
                                        | IoErr _ => Layer (with_pass false l) (Some (set_passthrough false i))
                                        end))
                        | None => DmRet (IoOk (blen data), Layer l None)
                        end
                    end
                end
            end
      end
  end
with write_all (f : nat) (c : chain) (data : bytes) : dm (ior unit * chain) :=
  match f with
  | O => DmFuel
  | S f =>
      if is_nil data then DmRet (IoOk tt, c)
      else
        dbind (c_write f c data) (fun '(x, c) =>
          match x with
          | IoOk n => if n =? 0 then DmRet (IoErr IoWriteZero, c) else write_all f c (skipn (N.to_nat n) data)
          | IoErr e => DmRet (IoErr e, c)
          end)
  end
with flush_writer (f : nat) (l : layer) (i : chain) (w : writer) : dm (ior writer * layer * option chain) :=
  match f with
  | O => DmFuel
  | S f =>
      let '(fl, w) := wr_flush w in
      dbind (match wr_buf w with
             | Some b => dbind (write_all f i b) (fun '(x, i) => DmRet (x, i, wr_clear w))
             | None => DmRet (IoOk tt, i, w)
             end)
        (fun '(x, i, w) =>
           match x with
           | IoErr e => DmRet (IoErr e, l, None)
           | IoOk _ =>
               match fl with
               | IoOk _ => DmRet (IoOk w, l, Some i)
               | IoErr IoWriteZero => flush_writer f l i w
               | IoErr IoOther => match restart l with
                                  | Some l => DmRet (IoOk w, l, Some i)
                                  | None => DmRet (IoErr IoOther, l, None)
                                  end
               end
           end)
  end.
Definition flush_inner (f : nat) (l : layer) (inner : option chain) (w : writer) : dm (ior writer * layer * option chain) :=
  match inner with Some i => flush_writer f l i w | None => DmRet (IoErr IoOther, l, None) end.
(** 873-883 *)
Fixpoint c_flush (f : nat) (c : chain) : dm (ior unit * chain) :=
  match f with
  | O => DmFuel
  | S f =>
      match c with
      | Sink => DmRet (IoOk tt, Sink)
      | Layer l inner =>
          dbind (match l_writer l with
                 | Some w => dbind (flush_inner f (with_writer None l) inner w) (fun '(x, l, inner) =>
                               match x with
                               | IoOk w => DmRet (IoOk tt, with_writer (Some w) l, inner)
                               | IoErr e => DmRet (IoErr e, l, inner)
                               end)
                 | None => DmRet (IoOk tt, l, inner)
                 end)
            (fun '(x, l, inner) =>
               match x, inner with
               | IoOk _, Some i => dbind (c_flush f i) (fun '(x, i) => DmRet (x, Layer l (Some i)))
               | _, _ => DmRet (x, Layer l inner)
               end)
      end
  end.
(** 927-943; the decompressor is dropped afterwards, so its final state is not returned *)
Fixpoint c_finish (f : nat) (c : chain) : dm (ior unit) :=
  match f with
  | O => DmFuel
  | S f =>
      match c with
      | Sink => DmCall None (fun ok => DmRet (if ok then IoOk tt else IoErr IoOther))
      | Layer l inner =>
          match l_writer l with
          | Some w =>
              dbind (flush_inner f (with_writer None l) inner w) (fun '(x, l, inner) =>
                match x with
                | IoErr e => DmRet (IoErr e)
                | IoOk w =>
                    match wr_finish w with
                    | IoErr e => DmRet (IoErr e)
                    | IoOk b => match inner with
                                | Some i => dbind (write_all f i b) (fun '(x, i) =>
                                              match x with IoOk _ => c_finish f i | IoErr e => DmRet (IoErr e) end)
                                | None => DmRet (IoOk tt)
                                end
                    end
                end)
          | None => match inner with Some i => c_finish f i | None => DmRet (IoOk tt) end
          end
      end
  end.
(** 337-347, [Decompressor::decompress], without the timer *)
Definition decompress (f : nat) (c : chain) (data : bytes) : dm (ior unit * chain) :=
  dbind (write_all f c data) (fun '(x, c) => match x with IoOk _ => c_flush f c | IoErr e => DmRet (IoErr e, c) end).

(** * Decompressors in a connection *)
(** What a program returns if every callback succeeds. *)
Fixpoint all_accept {A} (m : dm A) : option A :=
  match m with DmRet a => Some a | DmCall _ k => all_accept (k true) | DmFuel => None end.
(** The chain after a story ([decomp]); the parser keeps a decompressor only after calls in which every callback succeeded
    (src/request.rs:1025-1046, src/response.rs:1044-1067). *)
Fixpoint chain_of (f : nat) (dc : decomp) : option chain :=
  match dc with
  | [] => Some Sink
  | DoLayer ce :: dc => option_map (prepend ce) (chain_of f dc)
  | DoFeed b p :: dc =>
      match chain_of f dc with
      | Some c => match all_accept (decompress f c b) with
                  | Some (IoOk _, c) => Some (if p then set_passthrough true c else c)
                  | _ => None
                  end
      | None => None
      end
  end.
Definition is_ok {A} (x : ior A) : bool := match x with IoOk _ => true | IoErr _ => false end.
Fixpoint tree {A} (ok : A -> bool) (slow : bool) (m : dm A) : dtree :=
  match m with
  | DmRet a => DRet (ok a) slow
  | DmCall d k => DCall d (fun b => tree ok slow (k b))
  | DmFuel => DRet false slow
  end.
(** The decompressors of libhtp as a parameter [e_codec] of the connection model. [slow]: whether the time spent exceeds the limit
    after the call (src/request.rs:1030-1043, src/response.rs:1049-1063). *)
Definition libhtp_codec (f : nat) (slow : st -> decomp -> bytes -> bool) (s : st) (dc : decomp) (data : option bytes) : dtree :=
  match chain_of f dc with
  | None => DRet false false
  | Some c => match data with
              | Some b => tree (fun x => is_ok (fst x)) (slow s dc b) (decompress f c b)
              | None => tree is_ok false (c_finish f c)
              end
  end.
End Decompressor.
