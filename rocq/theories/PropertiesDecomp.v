(** Properties C44, C45, C46 and C52 to C55 of properties.jsonl: decompression. The decoders themselves (flate2, lzma-rs) are a parameter
    [r]; what a decoder that does its work is, what a gzip header is and what layers stand for: SpecDecomp.v. [f] bounds the steps of the
    model's recursion. *)
From Verif Require Import Base ModelState ModelTx ModelConn ModelDecomp SpecConn SpecDecomp.
From Verif Require Import ProofsDecomp ProofsInflate ProofsGzip ProofsBomb ProofsLayers ProofsDeliver ProofsToy PropertiesConn.

(** For the examples: a decoder with a buffer of five bytes, where a byte of compressed data stands for two. *)
Definition all_kinds (k : rawkind) : bool := true.
Definition toy5 : raw := toy 5 all_kinds.
Lemma toy5_decodes k : decodes toy5 k twice (fun _ => True) (fun _ => True) (toy_rep 5 all_kinds).
Proof. apply toy_decodes; [repeat constructor|reflexivity]. Qed.
(** A gzip header with an extra field of three bytes, a name, a comment and a CRC. *)
Definition ex_head : gzhead := mk_gzhead [1; 2; 3; 4; 0; 3] true 0 (Some [7; 8; 9]) (Some (s2b "name")) (Some (s2b "comment")) (Some (5, 6)).
Definition plain_head : gzhead := mk_gzhead [0; 0; 0; 0; 0; 3] false 0 None (Some (s2b "f.txt")) None None.
Lemma ex_head_good : good_gzhead ex_head /\ good_gzhead plain_head /\ plain_gzhead plain_head.
Proof.
  repeat split; cbn; try (intros b [= <-]; reflexivity); try discriminate;
    intros b [H | H]; inversion H; subst; vm_compute; intuition discriminate.
Qed.
(** [n] bytes, then the rest one by one. *)
Definition one_by_one (n : nat) (l : bytes) : list bytes := firstn n l :: map (fun c => [c]) (skipn n l).

(** * C44 *)
(** A gzip member behind any header [h] decodes to what its deflate stream [z] stands for, however it is cut, unless a cut falls
    between the two bytes of the extra field's length or of the header CRC. *)
Theorem C44_gzip_header_any_cut : forall r lz h D V E rep cs z, good_gzhead h -> decodes r RkDeflate D V E rep ->
  concat cs = gh_bytes h ++ z -> V z -> (forall a b, cs = a ++ b -> gz_cut_ok h (concat a)) ->
  exists f0, forall f, (f0 <= f)%nat -> exists l, delivered r lz f (new_chain r lz [CeGzip]) cs = Some (map Some l) /\ concat l = D z.
Proof. exact gzip_delivers. Qed.
Print Assumptions C44_gzip_header_any_cut.
Definition ex_gz : bytes := gh_bytes ex_head ++ s2b "hello".
Definition ex_gz_cut : list bytes := [firstn 3 ex_gz; firstn 10 (skipn 3 ex_gz); firstn 7 (skipn 13 ex_gz); skipn 20 ex_gz].
Example C44_ex : good_gzhead ex_head /\ decodes toy5 RkDeflate twice (fun _ => True) (fun _ => True) (toy_rep 5 all_kinds) /\ concat ex_gz_cut = ex_gz /\
  Forall (fun n => gz_cut_ok ex_head (concat (firstn n ex_gz_cut))) [0; 1; 2; 3; 4]%nat /\
  option_map joined (delivered toy5 false 50 (new_chain toy5 false [CeGzip]) ex_gz_cut) = Some (s2b "hheelllloo").
Proof.
  split; [apply ex_head_good|]. split; [apply toy5_decodes|]. split; [vm_compute; reflexivity|]. split; [|vm_compute; reflexivity].
  repeat constructor; intros _; vm_compute; discriminate.
Qed.
(** The condition on the cuts is needed, for either field: the byte in front of the cut is dropped, so the header ends a byte late. *)
Theorem C44_cut_in_field_refuted : exists r lz h D V E rep z cs cs', good_gzhead h /\ decodes r RkDeflate D V E rep /\ V z /\
  concat cs = gh_bytes h ++ z /\ concat cs' = gh_bytes h ++ z /\
  (exists a b, cs = [a; b] /\ length a = 11%nat) /\ (exists a b, cs' = [a; b] /\ (length a + 1 = length (gh_bytes h))%nat) /\
  option_map joined (delivered r lz 50 (new_chain r lz [CeGzip]) cs) <> Some (D z) /\
  option_map joined (delivered r lz 50 (new_chain r lz [CeGzip]) cs') <> Some (D z).
Proof.
  exists toy5, false, ex_head, twice, (fun _ => True), (fun _ => True), (toy_rep 5 all_kinds), (s2b "hello"), [firstn 11 ex_gz; skipn 11 ex_gz],
    [firstn (length (gh_bytes ex_head) - 1) ex_gz; skipn (length (gh_bytes ex_head) - 1) ex_gz].
  split; [apply ex_head_good|]. split; [apply toy5_decodes|]. split; [exact I|]. split; [vm_compute; reflexivity|]. split; [vm_compute; reflexivity|].
  split; [eexists _, _; split; reflexivity|]. split; [eexists _, _; split; reflexivity|]. split; vm_compute; discriminate.
Qed.
Print Assumptions C44_cut_in_field_refuted.

(** * C52 *)
(** Any number of layers: what the callbacks get, all in all, is what the body stands for; how it is cut makes no difference. *)
Theorem C52_decoded_whatever_the_cut : forall r lz ces D V E cs, layers_decode r lz ces D V E -> V (concat cs) -> cs <> [] ->
  exists f0, forall f, (f0 <= f)%nat -> exists l, delivered r lz f (new_chain r lz ces) cs = Some (map Some l) /\ concat l = D (concat cs).
Proof. exact chain_delivers. Qed.
Print Assumptions C52_decoded_whatever_the_cut.
(** In a connection: once a message's headers have set up its layers, its body, in pieces, arrives decoded at the body callbacks, as
    long as no limit is exceeded and the callbacks go along. *)
Theorem C52_body_callbacks_get_decoded : forall r lz ces D V E bs, layers_decode r lz ces D V E -> V (concat bs) -> bs <> [] ->
  exists f0, forall f e sd h s t, (f0 <= f)%nat ->
    e_codec e = libhtp_codec r lz f (fun _ _ _ => false) -> takes_bodies e ->
    h = by_side sd HRequestBodyTx HResponseBodyTx \/ h = by_side sd HRequestBody HResponseBody ->
    tx_get (s_idx sd s) (s_txs s) = Some t -> t_dec (x_dir sd t) = Some (fresh_decomp ces) ->
    t_cep (x_dir sd t) <> CeNone -> t_cep (x_dir sd t) <> CeError ->
    t_elen (x_dir sd t) + blen (D (concat bs)) <= c_bomb_limit (e_cfg e) -> c_bomb_limit (e_cfg e) < 2 ^ 64 ->
    exists s' l, body_pieces sd bs e s = (ROk tt, s') /\ got h (s_idx sd s) s' = got h (s_idx sd s) s ++ map PlData l /\ ~ In [] l /\ concat l = D (concat bs).
Proof. exact decoded_body. Qed.
Print Assumptions C52_body_callbacks_get_decoded.
(** Two layers, and a response that announces them. Its body is a gzip member in which every byte stands for four. *)
Definition two_layers : list cenc := [CeGzip; CeDeflate].
Definition dec_env : env := mk_env config_default (fun _ _ => SOk) (libhtp_codec toy5 false 60 (fun _ _ _ => false)) (fun _ => Some false) (fun _ => None).
Definition enc_head : bytes := ln "HTTP/1.1 200 OK" ++ ln "Content-Encoding: deflate, gzip" ++ ln "Content-Length: 19" ++ eol.
Definition enc_body : bytes := gh_bytes plain_head ++ s2b "abc".
Definition dec_state (l : list bytes) : st := snd (history dec_env (OpOpen :: OpReq (bytes_chunk get1) :: map (fun b => OpResp (bytes_chunk b)) l)).
Definition two_decoded (x : bytes) : bytes := twice (gz_decoded plain_head twice x).
Definition two_valid (x : bytes) : Prop := gz_valid plain_head (fun _ => True) x /\ True /\ True.
Lemma two_decode : layers_decode toy5 false two_layers two_decoded two_valid (fun _ => True /\ True /\ True).
Proof.
  apply (lsd_cons toy5 false CeGzip [CeDeflate] (gz_decoded plain_head twice) (gz_valid plain_head (fun _ => True)) (fun _ => True) twice (fun x => True /\ True) (fun x => True /\ True)).
  - eapply (ld_gzip toy5 false twice (fun _ => True) (fun _ => True) _ plain_head); [apply ex_head_good|apply ex_head_good|apply toy5_decodes].
  - apply (lsd_cons toy5 false CeDeflate [] twice (fun _ => True) (fun _ => True) (fun x => x) (fun _ => True) (fun _ => True)); [|constructor]. eapply ld_deflate, toy5_decodes.
Qed.
Lemma two_valid_body : two_valid enc_body.
Proof. repeat split. exists (s2b "abc"). right. reflexivity. Qed.
Example C52_ex : layers_decode toy5 false two_layers two_decoded two_valid (fun _ => True /\ True /\ True) /\ two_valid enc_body /\
  two_decoded enc_body = s2b "aaaabbbbcccc" /\ takes_bodies dec_env /\
  option_map (fun t => (t_dec (x_resp t), t_cep (x_resp t), t_elen (x_resp t))) (tx_get 0 (s_txs (dec_state [enc_head]))) =
    Some (Some (fresh_decomp two_layers), CeDeflate, 0) /\
  body_of HResponseBody 0 (dec_state [enc_head ++ enc_body]) = s2b "aaaabbbbcccc" /\
  body_of HResponseBody 0 (dec_state (enc_head :: one_by_one 2 enc_body)) = s2b "aaaabbbbcccc".
Proof.
  split; [exact two_decode|]. split; [exact two_valid_body|]. split; [vm_compute; reflexivity|]. split; [intros s ev _; left; reflexivity|]. split; [vm_compute; reflexivity|]. split; vm_compute; reflexivity.
Qed.
(** lzma that is switched off: the layer does nothing. *)
Example C52_lzma_off_ex : exists V E, layers_decode toy5 false [CeDeflate; CeLzma] twice V E /\ V (s2b "hello") /\
  option_map joined (delivered toy5 false 50 (new_chain toy5 false [CeDeflate; CeLzma]) [s2b "he"; s2b "llo"]) = Some (s2b "hheelllloo").
Proof.
  exists (fun _ => True /\ True), (fun _ => True /\ True). split; [|split; [auto|vm_compute; reflexivity]].
  apply (lsd_cons toy5 false CeDeflate [CeLzma] twice (fun _ => True) (fun _ => True) (fun x => x) (fun _ => True) (fun _ => True)); [eapply ld_deflate, toy5_decodes|]. apply lsd_off; [reflexivity|constructor].
Qed.

(** * C54 *)
(** A decompressor whose time is up (in the call with [b]) passes everything on that comes later, as it is, piece by piece. *)
Theorem C54_late_data_passes_through : forall r lz ces D V E cs b, layers_decode r lz ces D V E -> V (concat cs ++ b) ->
  exists f0, forall f ds, (f0 <= f)%nat -> ~ In [] ds ->
    exists c, chain_of r lz f (DoFeed b true :: fed cs (fresh_decomp ces)) = Some c /\ delivered r lz f c ds = Some (map Some ds).
Proof. exact slow_passes. Qed.
Print Assumptions C54_late_data_passes_through.
(** In a connection: when the time is up in the call with piece number [k], the callbacks get what the body up to that piece stands for
    and the other pieces as they are. *)
Theorem C54_time_limit : forall r lz ces D V E bs k, layers_decode r lz ces D V E -> V (concat (firstn (S k) bs)) -> (k < length bs)%nat ->
  exists f0, forall f e sd h s t slow, (f0 <= f)%nat ->
    e_codec e = libhtp_codec r lz f (fun _ dc _ => slow (feeds dc)) -> (forall n, (n < k)%nat -> slow n = false) -> slow k = true -> takes_bodies e ->
    h = by_side sd HRequestBodyTx HResponseBodyTx \/ h = by_side sd HRequestBody HResponseBody ->
    tx_get (s_idx sd s) (s_txs s) = Some t -> t_dec (x_dir sd t) = Some (fresh_decomp ces) ->
    t_cep (x_dir sd t) <> CeNone -> t_cep (x_dir sd t) <> CeError ->
    let out := D (concat (firstn (S k) bs)) ++ concat (skipn (S k) bs) in
    t_elen (x_dir sd t) + blen out <= c_bomb_limit (e_cfg e) -> c_bomb_limit (e_cfg e) < 2 ^ 64 ->
    exists s' l, body_pieces sd bs e s = (ROk tt, s') /\ got h (s_idx sd s) s' = got h (s_idx sd s) s ++ map PlData l /\ ~ In [] l /\ concat l = out.
Proof. exact slow_body. Qed.
Print Assumptions C54_time_limit.
(** The second piece is late; the third reaches the callbacks as it came. *)
Definition late_env : env := mk_env config_default (fun _ _ => SOk) (libhtp_codec toy5 false 60 (fun _ dc _ => Nat.leb 1 (feeds dc))) (fun _ => Some false) (fun _ => None).
Definition late_state (l : list bytes) : st := snd (history late_env (OpOpen :: OpReq (bytes_chunk get1) :: map (fun b => OpResp (bytes_chunk b)) l)).
Example C54_ex : layers_decode toy5 false two_layers two_decoded two_valid (fun _ => True /\ True /\ True) /\ takes_bodies late_env /\
  option_map (fun t => (t_dec (x_resp t), t_cep (x_resp t), t_elen (x_resp t))) (tx_get 0 (s_txs (late_state [enc_head]))) =
    Some (Some (fresh_decomp two_layers), CeDeflate, 0) /\
  got HResponseBody 0 (late_state [enc_head; firstn 17 enc_body; firstn 1 (skipn 17 enc_body); skipn 18 enc_body]) = map PlData [s2b "aaaa"; s2b "bbbb"; s2b "c"].
Proof. split; [exact two_decode|]. split; [intros s ev _; left; reflexivity|]. split; vm_compute; reflexivity. Qed.

(** * C55 *)
(** After a body that may end where it ends, the end is signalled once, behind all its data. *)
Theorem C55_end_after_all_data : forall r lz ces D V E cs, layers_decode r lz ces D V E -> V (concat cs) -> E (concat cs) ->
  exists f0, forall f, (f0 <= f)%nat -> exists l, delivered_whole r lz f (new_chain r lz ces) cs = Some (map Some l ++ [None]) /\ concat l = D (concat cs).
Proof. exact chain_whole. Qed.
Print Assumptions C55_end_after_all_data.
(** In a connection: the callbacks of a request's body get its data and then the end. Those of a response's body get no end. *)
Theorem C55_body_callbacks_get_end : forall r lz ces D V E bs, layers_decode r lz ces D V E -> V (concat bs) -> E (concat bs) ->
  exists f0, forall f e sd h s t, (f0 <= f)%nat ->
    e_codec e = libhtp_codec r lz f (fun _ _ _ => false) -> takes_bodies e ->
    h = by_side sd HRequestBodyTx HResponseBodyTx \/ h = by_side sd HRequestBody HResponseBody ->
    tx_get (s_idx sd s) (s_txs s) = Some t -> t_dec (x_dir sd t) = Some (fresh_decomp ces) ->
    t_cep (x_dir sd t) <> CeNone -> t_cep (x_dir sd t) <> CeError ->
    t_elen (x_dir sd t) + blen (D (concat bs)) <= c_bomb_limit (e_cfg e) -> c_bomb_limit (e_cfg e) < 2 ^ 64 ->
    exists l, got h (s_idx sd s) (snd (whole_body sd bs e s)) = got h (s_idx sd s) s ++ map PlData l ++ by_side sd [PlNone] [] /\ ~ In [] l /\ concat l = D (concat bs).
Proof. exact whole_decoded. Qed.
Print Assumptions C55_body_callbacks_get_end.
(** A request with a compressed body. *)
Definition req_env : env := mk_env (set_c_req_decomp true config_default) (fun _ _ => SOk) (libhtp_codec toy5 false 60 (fun _ _ _ => false)) (fun _ => Some false) (fun _ => None).
Definition enc_req : bytes := ln "POST / HTTP/1.1" ++ ln "Host: h" ++ ln "Content-Encoding: deflate" ++ ln "Content-Length: 3" ++ eol.
Definition req_state (l : list bytes) : st := snd (history req_env (OpOpen :: map (fun b => OpReq (bytes_chunk b)) l)).
Example C55_ex : layers_decode toy5 false [CeDeflate] twice (fun _ => True /\ True) (fun _ => True /\ True) /\ takes_bodies req_env /\
  option_map (fun t => (t_dec (x_req t), t_cep (x_req t), t_elen (x_req t))) (tx_get 0 (s_txs (req_state [enc_req]))) =
    Some (Some (fresh_decomp [CeDeflate]), CeDeflate, 0) /\
  got HRequestBody 0 (req_state [enc_req; s2b "a"; s2b "bc"]) = map PlData [s2b "aa"; s2b "bbcc"] ++ [PlNone].
Proof.
  split; [|split; [intros s ev _; left; reflexivity|split; vm_compute; reflexivity]].
  apply (lsd_cons toy5 false CeDeflate [] twice (fun _ => True) (fun _ => True) (fun x => x) (fun _ => True) (fun _ => True)); [eapply ld_deflate, toy5_decodes|constructor].
Qed.

(** * C53 *)
(** A callback that fails ends the call: nothing is delivered after it and the call reports an error, whatever the decoders do. The
    same holds for the call that ends a body. *)
Theorem C53_failed_callback_ends_decompression : forall r lz f c d,
  ends_at_failure (fun x => exists err, fst x = IoErr err) (decompress r lz f c d) /\
  ends_at_failure (fun x => exists err, x = IoErr err) (c_finish r lz f c).
Proof. exact failure_ends. Qed.
Print Assumptions C53_failed_callback_ends_decompression.
(** Three callbacks; when the first one fails, the other two do not run. *)
Example C53_ex : match decompress toy5 false 50 (new_chain toy5 false [CeDeflate]) (s2b "hello") with
  | DmCall d k => Some (d, match k false with DmRet (x, _) => Some x | _ => None end, calls (k true))
  | _ => None
  end = Some (Some (s2b "hhee"), Some (IoErr IoOther), [Some (s2b "llll"); Some (s2b "oo")]).
Proof. vm_compute. reflexivity. Qed.

(** * C45 *)
(** Restarts: after any use of a decompressor each of its layers has restarted at most three times. *)
Theorem C45_restarts_bounded : forall r lz f dc c, chain_of r lz f dc = Some c -> restarts_within r 3 c.
Proof. exact few_chain. Qed.
Print Assumptions C45_restarts_bounded.
(** Then data goes through unchanged, past all the layers: if the first piece is data that neither gzip nor a decoder of the outermost
    layer wants, it and everything after it reaches the callback as it is, piece by piece. *)
Theorem C45_unwanted_data_passes_through : forall r lz ce ces D V E d ds f, In ce [CeGzip; CeDeflate; CeZlib; CeLzma] ->
  not_gzip d -> rejects r RkDeflate d -> rejects r RkZlib d -> (ce = CeLzma -> lz = true /\ rejects r RkLzma d) ->
  layers_decode r lz ces D V E -> d <> [] -> ~ In [] ds -> (length ces + 10 <= f)%nat ->
  delivered r lz f (new_chain r lz (ce :: ces)) (d :: ds) = Some (map Some (d :: ds)).
Proof. exact unwanted_passes. Qed.
Print Assumptions C45_unwanted_data_passes_through.
Definition rejecting : raw := toy 5 (fun _ => false).
Example C45_ex : not_gzip (s2b "hello") /\ rejects rejecting RkDeflate (s2b "hello") /\ rejects rejecting RkZlib (s2b "hello") /\
  rejects rejecting RkLzma (s2b "hello") /\
  (exists c, chain_of rejecting true 50 [DoFeed (s2b "hello") false; DoLayer CeLzma] = Some c /\ ~ restarts_within rejecting 2 c).
Proof.
  split; [intro z; split; discriminate|]. split; [reflexivity|]. split; [reflexivity|]. split; [reflexivity|].
  eexists. split; [vm_compute; reflexivity|]. intros [H _]. vm_compute in H. now apply H.
Qed.
(** A decoder of lzma only, inside a gzip layer that gets plain text. *)
Definition only_lzma : raw := toy 5 (fun k => match k with RkLzma => true | _ => false end).
Example C45_inner_ex : rejects only_lzma RkDeflate (s2b "hello") /\ rejects only_lzma RkZlib (s2b "hello") /\
  (exists V E, layers_decode only_lzma true [CeLzma] twice V E) /\
  delivered only_lzma true 50 (new_chain only_lzma true [CeGzip; CeLzma]) [s2b "hello"; s2b "you"] = Some [Some (s2b "hello"); Some (s2b "you")].
Proof.
  split; [reflexivity|]. split; [reflexivity|]. split; [|vm_compute; reflexivity]. exists (fun _ => True /\ True), (fun _ => True /\ True).
  apply (lsd_cons only_lzma true CeLzma [] twice (fun _ => True) (fun _ => True) (fun x => x) (fun _ => True) (fun _ => True)); [|constructor].
  eapply ld_lzma; [reflexivity|]. apply toy_decodes; [repeat constructor|reflexivity].
Qed.
(** Layers: setting up the layers of a message exceeds neither limit, except that one layer is always allowed. *)
Theorem C45_layers_bounded : forall sd cfg d, t_dec d = None ->
  let ls := layers_of (fst (initialize_decompressors sd cfg d)) in
  (forall m, c_layer_limit cfg = Some m -> enc_count (fun _ => true) ls <= N.max 1 m) /\
  (forall m, c_lzma_layers cfg = Some m -> enc_count is_lzma ls <= N.max 1 m).
Proof. exact layers_bounded. Qed.
Print Assumptions C45_layers_bounded.
Definition with_ce (v : string) : txdir := set_t_headers [mk_header (s2b "Content-Encoding") (s2b v) 0] (x_resp tx_new).
Example C45_layers_ex :
  layers_of (fst (initialize_decompressors SResp (set_c_layer_limit (Some 2) config_default) (with_ce "gzip, deflate, gzip, gzip"))) = [CeDeflate; CeGzip] /\
  layers_of (fst (initialize_decompressors SResp (set_c_layer_limit None (set_c_lzma_layers (Some 1) config_default)) (with_ce "lzma, gzip, lzma, gzip"))) = [CeGzip; CeLzma].
Proof. split; vm_compute; reflexivity. Qed.
(** A limit of 0 allows no layers by its name, but one gets through. *)
Theorem C45_limit_zero_refuted : exists sd cfg d, t_dec d = None /\ c_layer_limit cfg = Some 0 /\ c_lzma_layers cfg = Some 0 /\
  layers_of (fst (initialize_decompressors sd cfg d)) = [CeLzma].
Proof. exists SResp, (set_c_lzma_layers (Some 0) (set_c_layer_limit (Some 0) config_default)), (with_ce "lzma"). repeat split. Qed.
Print Assumptions C45_limit_zero_refuted.

(** * C46 *)
(** The decompressors, with buffers of [n] bytes, hand out pieces of at most [n] bytes or as long as what came in, and stop at the
    first callback that fails. *)
Theorem C46_pieces_bounded : forall r lz f slow n e, buffers_within n r -> e_codec e = libhtp_codec r lz f slow -> orderly n e.
Proof. exact libhtp_orderly. Qed.
Print Assumptions C46_pieces_bounded.
(** So a compressed body cannot blow up: of a body that comes in pieces of at most [C] bytes the callbacks get no more than the limit or
    [ratio] times what came in, and one piece; and no more than that without the piece if every data call succeeds. *)
Theorem C46_bomb_limit : forall n C sd h e bs, orderly n e -> n <= C -> (forall b, In b bs -> blen b <= C) ->
  h = by_side sd HRequestBodyTx HResponseBodyTx \/ h = by_side sd HRequestBody HResponseBody ->
  forall s t, tx_get (s_idx sd s) (s_txs s) = Some t -> t_cep (x_dir sd t) <> CeNone -> t_elen (x_dir sd t) = 0 -> t_mlen (x_dir sd t) = 0 ->
  N.max (c_bomb_limit (e_cfg e)) (c_bomb_ratio (e_cfg e) * total_len bs) + C < 2 ^ 64 -> total_len bs < 2 ^ 64 ->
  let most := N.max (c_bomb_limit (e_cfg e)) (c_bomb_ratio (e_cfg e) * total_len bs) in
  let s1 := snd (body_pieces sd bs e s) in let s2 := snd (whole_body sd bs e s) in
  body_bytes h (s_idx sd s) s2 <= body_bytes h (s_idx sd s) s + most + C /\
  (fst (body_pieces sd bs e s) = ROk tt -> body_bytes h (s_idx sd s) s1 <= body_bytes h (s_idx sd s) s + most).
Proof. exact whole_body_bounded. Qed.
Print Assumptions C46_bomb_limit.
(** A limit of 9 bytes: the fourth callback exceeds it and is the last. *)
Definition small_env : env := mk_env (set_c_bomb_ratio 1 (set_c_bomb_limit 9 config_default)) (fun _ _ => SOk) (libhtp_codec toy5 false 60 (fun _ _ _ => false)) (fun _ => Some false) (fun _ => None).
Definition small_state : st :=
  snd (history small_env [OpOpen; OpReq (bytes_chunk get1); OpResp (bytes_chunk (ln "HTTP/1.1 200 OK" ++ ln "Content-Encoding: deflate" ++ eol))]).
Example C46_ex : orderly 5 small_env /\
  (exists t, tx_get (s_idx SResp small_state) (s_txs small_state) = Some t /\ t_cep (x_resp t) = CeDeflate /\ t_elen (x_resp t) = 0 /\ t_mlen (x_resp t) = 0) /\
  body_bytes HResponseBody 0 (snd (body_pieces SResp [s2b "a"; s2b "bc"; s2b "defghij"] small_env small_state)) = 14 /\
  fst (body_pieces SResp [s2b "a"; s2b "bc"; s2b "defghij"] small_env small_state) = RErr SError.
Proof.
  split; [eapply C46_pieces_bounded; [apply (toy_within 5 all_kinds)|reflexivity]|]. split; [eexists; split; [vm_compute; reflexivity|repeat split]|]. split; vm_compute; reflexivity.
Qed.
