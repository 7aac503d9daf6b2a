(** Properties C07-C11 and C48 of the byte stream. *)
From Verif Require Import Base ByteStreamModel ByteStreamSpec ByteStreamProofs.

(** C07. However the bytes arrive (any chunks, any reading in between), the closed stream has
    the same characters, byte offsets and line table as when they arrive at once. *)
Theorem C07_chunked_equals_whole : forall c fs,
  let s := close (foldl run_feed (new UTF8 c) fs) in
  let w := close (append (new UTF8 c) (fed fs)) in
  chars s = chars w /\ offs s = offs w /\ line_starts s = line_starts w.
Proof. exact chunk_utf8. Qed.
Print Assumptions C07_chunked_equals_whole.

(** Cutting inside a four-byte character, a malformed sequence and between CR and LF. *)
Example C07_chunked_nontrivial :
  let s := close (foldl run_feed (new UTF8 default_config)
             [FChunk [240; 159]%N; FRead RNext; FChunk [152; 128; 13]%N; FRead RLocation; FChunk [10; 226]%N; FChunk [130]%N]) in
  chars s = [Ch 128512; Ch 13; Ch 10; Ch 65533] /\ offs s = [0; 4; 5; 6] /\ line_starts s = [0; 3].
Proof. by vm_compute. Qed.

(** C07. What the characters are: the lossy decoding of the concatenated bytes, every
    character with the offset of its first byte. *)
Theorem C07_decoding_is_lossy_utf8 : forall c fs,
  let s := close (foldl run_feed (new UTF8 c) fs) in
  lossy 0 (fed fs) (zip (offs s) (chars s)) /\ length (offs s) = length (chars s).
Proof. exact chunk_utf8_lossy. Qed.
Print Assumptions C07_decoding_is_lossy_utf8.

(** C07. Well-formed text comes out as it went in, wherever it was cut. *)
Theorem C07_text_survives : forall c cs encs fs,
  Forall2 utf8_of cs encs -> fed fs = concat encs ->
  chars (close (foldl run_feed (new UTF8 c) fs)) = map Ch cs.
Proof. exact decode_encode. Qed.
Print Assumptions C07_text_survives.

Example C07_text_nontrivial :
  Forall2 utf8_of [97; 8364; 128512]%N [[97]; [226; 130; 172]; [240; 159; 152; 128]]%N /\
  fed [FChunk [97; 226]%N; FChunk [130; 172; 240; 159]%N; FChunk [152; 128]%N] = concat [[97]; [226; 130; 172]; [240; 159; 152; 128]]%N.
Proof.
  split; [|done]. constructor; [by constructor|]. constructor; [|constructor; [|constructor]].
  - apply (U3 8364 2 2 44); lia.
  - apply (U4 128512 0 31 24 0); lia.
Qed.

(** C08. In every reachable stream a location query succeeds; the line is one more than the
    number of line breaks up to the position, the column counts from the last one, the
    offset is that of the position, and the query changes neither text nor position. *)
Theorem C08_location_is_position : forall s,
  reachable s ->
  exists s' l q, get_location s = Ok (s', l) /\
    chars s' = chars s /\ pos s' = pos s /\
    l_line l = line_of (cfg s) (chars s) (pos s) /\
    line_start_of (cfg s) (chars s) (pos s) q /\ l_column l = pos s - q + 1 /\
    l_offset l = tell_bytes s.
Proof.
  intros s Hr. destruct (location_ok s (reachable_inv s Hr)) as (s' & l & q & H1 & (_ & H2 & _) & H).
  exists s', l, q. split; [exact H1|]. split; [exact H2|]. exact H.
Qed.
Print Assumptions C08_location_is_position.

Example C08_location_nontrivial :
  let s := run_ops (new UTF8 default_config)
     [OAppend [97; 13]%N; ORead (RNextN 2); ORead RLocation; OAppend [10; 98; 10; 99]%N; ORead (RNextN 9); ORead RLocation; ORead (RPrevN 1)] in
  reachable s /\ exists s', get_location s = Ok (s', mk_loc 3 1 5).
Proof. split; [by eexists _, _, _|]. eexists. by vm_compute. Qed.

(** C08. The line number is one more than the number of line feeds handed to a reader that
    started at the beginning. *)
Theorem C08_line_counts_line_feeds_read : forall s n,
  reachable s -> pos s = 0 ->
  let r := read_many n s in
  line_of (cfg s) (chars s) (pos (fst r)) = 1 + length (filter (fun c => c = Ch 10) (snd r)).
Proof.
  intros s n _ Hp r. unfold r. rewrite read_many_lines, Hp; [done|]. intros (_ & H & _). rewrite Hp in H. inversion H.
Qed.
Print Assumptions C08_line_counts_line_feeds_read.

Example C08_count_nontrivial :
  let s := run_ops (new UTF8 (mk_config true true false)) [OAppend [97; 13; 10; 13; 98; 10]%N] in
  reachable s /\ pos s = 0 /\ snd (read_many 5 s) = [Ch 97; Ch 10; Ch 10; Ch 98; Ch 10].
Proof. split; [by eexists _, _, _|]. by vm_compute. Qed.

(** C09. Stepping back undoes one read, unless the position was between the CR and the LF of
    one pair. *)
Theorem C09_unread_is_inverse : forall s,
  read s <> StreamEnd ->
  ~ (cr_lf_as_one (cfg s) = true /\ 0 < pos s /\
     chars s !! (pos s - 1) = Some (Ch 13) /\ chars s !! pos s = Some (Ch 10)) ->
  prev (fst (read_and_next s)) = s.
Proof. intros s H1 H2. exact (prev_read s H2 H1). Qed.
Print Assumptions C09_unread_is_inverse.

Theorem C09_end_of_input_stays : forall s, read s = StreamEnd -> read_and_next s = (s, StreamEnd).
Proof. exact read_end. Qed.
Print Assumptions C09_end_of_input_stays.

Theorem C09_slice_keeps_position : forall s n, fst (get_slice s n) = s.
Proof. exact get_slice_pos. Qed.
Print Assumptions C09_slice_keeps_position.

Theorem C09_mark_reset : forall s os,
  let s' := foldl run_rop s os in pos (reset_to_mark s' (mark s)) = pos s /\ chars (reset_to_mark s' (mark s)) = chars s.
Proof.
  intros s os s'. split; [done|]. unfold s'. simpl.
  assert (H : forall s, chars (foldl run_rop s os) = chars s); [|exact (H s)].
  induction os as [|o os IH]; intros t; [done|]. simpl. rewrite IH. by destruct (rop_same t o) as (_ & -> & _).
Qed.
Print Assumptions C09_mark_reset.

Example C09_nontrivial :
  let s := run_ops (new UTF8 default_config) [OAppend [97; 13; 10; 98]%N; ORead (RNextN 1)] in
  read s = Ch 13 /\ snd (read_and_next s) = Ch 10 /\ pos (fst (read_and_next s)) = 3 /\ pos (prev (fst (read_and_next s))) = 1.
Proof. by vm_compute. Qed.

(** The excluded position is reachable (skip one character onto the LF) and there un-reading
    is not the inverse. *)
Theorem C09_inside_pair_refuted : exists s,
  reachable s /\ read s <> StreamEnd /\ prev (fst (read_and_next s)) <> s.
Proof.
  exists (run_ops (new UTF8 default_config) [OAppend [13; 10]%N; ORead (RNextN 1)]).
  split; [by eexists _, _, _|]. split; by vm_compute.
Qed.
Print Assumptions C09_inside_pair_refuted.

(** C10. *)
Theorem C10_offsets_increase : forall s,
  reachable s ->
  length (offs s) = length (chars s) /\ StronglySorted lt (offs s) /\
  (forall o, o ∈ offs s -> o < length (buffer s)) /\ tell_bytes s <= length (buffer s).
Proof.
  intros s Hr. pose proof (reachable_inv s Hr) as Hi. pose proof (tell_bound s Hi) as Ht. destruct Hi as [_ _ Hl Hs Hb Hd].
  split_and!; [done|done| |done]. intros o Ho. apply Hb in Ho. lia.
Qed.
Print Assumptions C10_offsets_increase.

Theorem C10_seek_tell : forall s,
  reachable s -> pos s <= length (chars s) -> seek_bytes s (tell_bytes s) = s.
Proof. intros s Hr. exact (seek_tell s (reachable_inv s Hr)). Qed.
Print Assumptions C10_seek_tell.

Theorem C10_seek_finds_first : forall s o,
  reachable s -> o <= length (buffer s) ->
  let s' := seek_bytes s o in
  o <= tell_bytes s' /\ pos s' <= length (chars s) /\
  forall j p, j < pos s' -> offs s !! j = Some p -> p < o.
Proof. intros s o Hr. exact (seek_first s o (reachable_inv s Hr)). Qed.
Print Assumptions C10_seek_finds_first.

(** Switching the encoding keeps the place: the new position is the first character that
    starts at or after the old byte offset. *)
Theorem C10_set_encoding_keeps_place : forall s e,
  reachable s ->
  let s' := set_encoding s e in
  tell_bytes s <= tell_bytes s' <= length (buffer s) /\ buffer s' = buffer s /\
  (e <> enc s -> forall j p, j < pos s' -> offs s' !! j = Some p -> p < tell_bytes s).
Proof. intros s e Hr. exact (set_encoding_pos s e (reachable_inv s Hr)). Qed.
Print Assumptions C10_set_encoding_keeps_place.

Example C10_nontrivial :
  let s := run_ops (new UTF8 default_config) [OAppend [226; 130; 172; 97; 98]%N; ORead (RNextN 2)] in
  reachable s /\ pos s <= length (chars s) /\ tell_bytes s = 4 /\
  pos (set_encoding s Latin1) = 4 /\ tell_bytes (set_encoding s Latin1) = 4 /\
  tell_bytes (set_encoding s UTF16LE) = 5.
Proof. split; [by eexists _, _, _|]. vm_compute. split_and!; try done. lia. Qed.

(** C11. The full statement is false: a cut between the two halves of a surrogate pair
    changes the text. *)
Theorem C11_chunked_utf16_refuted : exists fs,
  Forall (fun b => b < 256)%N (fed fs) /\
  chars (close (foldl run_feed (new UTF16BE default_config) fs)) <>
  chars (close (append (new UTF16BE default_config) (fed fs))).
Proof. exists [FChunk [216; 61]%N; FChunk [222; 0]%N]. split; [repeat constructor|]. by vm_compute. Qed.
Print Assumptions C11_chunked_utf16_refuted.

(** It holds whenever no chunk boundary falls inside a surrogate pair. *)
Theorem C11_chunked_utf16_partial : forall e c fs,
  (e = UTF16LE \/ e = UTF16BE) ->
  Forall (fun b => b < 256)%N (fed fs) ->
  let s := close (foldl run_feed (new e c) fs) in
  let w := close (append (new e c) (fed fs)) in
  (forall k, k ∈ cuts 0 fs -> ~ splits_pair (zip (offs w) (chars w)) k) ->
  chars s = chars w /\ offs s = offs w /\ line_starts s = line_starts w.
Proof. exact chunk_utf16. Qed.
Print Assumptions C11_chunked_utf16_partial.

(** Cuts in the middle of a code unit and right before a pair are harmless. *)
Example C11_nontrivial :
  let fs := [FChunk [0]%N; FChunk [97; 216]%N; FChunk [61; 222; 0; 0]%N; FChunk [98]%N] in
  let w := close (append (new UTF16BE default_config) (fed fs)) in
  (forall k, k ∈ cuts 0 fs -> ~ splits_pair (zip (offs w) (chars w)) k) /\ chars w = [Ch 97; Ch 128512; Ch 98].
Proof.
  split; [|by vm_compute]. vm_compute. intros k Hk (o & c & Hin & Hc & Hlt).
  repeat (apply elem_of_cons in Hin as [[= -> ->]|Hin]; [try (exfalso; apply Hc; reflexivity)|]).
  - repeat (apply elem_of_cons in Hk as [->|Hk]; [lia|]). by apply elem_of_nil in Hk.
  - by apply elem_of_nil in Hin.
Qed.

(** C48. Loading bytes into a stream that has been used before keeps the old text. *)
Theorem C48_reload_refuted : exists s bs,
  reachable s /\ chars (read_from_bytes s bs) <> chars (read_from_bytes (new UTF8 default_config) bs).
Proof.
  exists (run_ops (new UTF8 default_config) [OAppend [97; 98]%N]), [99]%N. split; [by eexists _, _, _|]. by vm_compute.
Qed.
Print Assumptions C48_reload_refuted.

(** C48. The other two loaders do replace the text: the result depends on the new bytes, the
    encoding and the configuration only. *)
Theorem C48_reload_partial : forall s bs,
  chars (read_from_file s bs) = chars (read_from_file (new (enc s) (cfg s)) bs) /\
  offs (read_from_file s bs) = offs (read_from_file (new (enc s) (cfg s)) bs) /\
  line_starts (read_from_file s bs) = line_starts (read_from_file (new (enc s) (cfg s)) bs) /\
  pos (read_from_file s bs) = 0 /\
  (forall e, chars (read_from_str s bs e) = chars (read_from_str (new (enc s) (cfg s)) bs e) /\
             line_starts (read_from_str s bs e) = line_starts (read_from_str (new (enc s) (cfg s)) bs e) /\
             pos (read_from_str s bs e) = 0).
Proof. exact reload_ok. Qed.
Print Assumptions C48_reload_partial.

Example C48_nontrivial :
  let s := run_ops (new UTF8 default_config) [OAppend [97; 98]%N; ORead RNext] in
  chars (read_from_file s [99]%N) = [Ch 99] /\ chars (read_from_bytes s [99]%N) = [Ch 97; Ch 98].
Proof. by vm_compute. Qed.
