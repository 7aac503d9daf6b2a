(** Model of crates/gosub_shared/src/byte_stream.rs *)
From Verif Require Import Base.

(** byte_stream.rs:10-22 [Encoding] *)
Inductive encoding := Unknown | Latin1 | UTF8 | UTF16LE | UTF16BE.
Global Instance encoding_eq_dec : EqDecision encoding.
Proof. solve_decision. Defined.

(** byte_stream.rs:31-38 [Character]; code points are [N]. *)
Inductive character := Ch (c : N) | Surrogate (u : N) | StreamEnd.
Global Instance character_eq_dec : EqDecision character.
Proof. solve_decision. Defined.

(** byte_stream.rs:6-7 *)
Definition LF : character := Ch 10.
Definition CR : character := Ch 13.
Definition REPLACEMENT : N := 65533.

(** byte_stream.rs:92-109 [Config] *)
Record config := mk_config { cr_lf_as_one : bool; replace_cr_as_lf : bool; replace_high_ascii : bool }.
Definition default_config : config := mk_config true false false.

(** byte_stream.rs:111-135 [ByteStream]. Bytes are [N] below 256. *)
Record stream := mk_stream {
  buffer : list N;
  chars : list character;
  offs : list nat;             (* char_byte_offsets *)
  decoded : nat;               (* decoded_bytes *)
  line_starts : list nat;
  line_hint : nat;             (* last_line_idx *)
  scanned : nat;               (* lines_scanned_chars *)
  pos : nat;                   (* char_pos *)
  closed : bool;
  enc : encoding;
  cfg : config;
}.

Definition set_pos (s : stream) (p : nat) : stream :=
  mk_stream (buffer s) (chars s) (offs s) (decoded s) (line_starts s) (line_hint s) (scanned s) p (closed s) (enc s) (cfg s).
Definition set_hint (s : stream) (i : nat) : stream :=
  mk_stream (buffer s) (chars s) (offs s) (decoded s) (line_starts s) i (scanned s) (pos s) (closed s) (enc s) (cfg s).
Definition set_buffer (s : stream) (b : list N) : stream :=
  mk_stream b (chars s) (offs s) (decoded s) (line_starts s) (line_hint s) (scanned s) (pos s) (closed s) (enc s) (cfg s).
Definition set_closed (s : stream) (b : bool) : stream :=
  mk_stream (buffer s) (chars s) (offs s) (decoded s) (line_starts s) (line_hint s) (scanned s) (pos s) b (enc s) (cfg s).
Definition set_enc (s : stream) (e : encoding) : stream :=
  mk_stream (buffer s) (chars s) (offs s) (decoded s) (line_starts s) (line_hint s) (scanned s) (pos s) (closed s) e (cfg s).

(** byte_stream.rs:314-328 [ByteStream::new] *)
Definition new (e : encoding) (c : config) : stream :=
  mk_stream [] [] [] 0 [0] 0 0 0 false e c.

(** * Decoding *)

(** The result of looking at one UTF-8 sequence at the start of the input, following the
    documented behaviour of [std::str::from_utf8] (core/str/validations.rs): a complete
    sequence, an error with [error_len() = Some n], or an unexpected end of input
    ([error_len() = None]). *)
Inductive utf8_seq := UValid (c : N) (n : nat) | UError (n : nat) | UIncomplete.

Definition in_range (lo hi b : N) : bool := (lo <=? b)%N && (b <=? hi)%N.
Definition is_cont (b : N) : bool := in_range 128 191 b.
(** admissible second bytes of 3- and 4-byte sequences *)
Definition second3 (b0 b1 : N) : bool :=
  if (b0 =? 224)%N then in_range 160 191 b1
  else if (b0 =? 237)%N then in_range 128 159 b1
  else in_range 128 191 b1.
Definition second4 (b0 b1 : N) : bool :=
  if (b0 =? 240)%N then in_range 144 191 b1
  else if (b0 =? 244)%N then in_range 128 143 b1
  else in_range 128 191 b1.

Definition utf8_first (bs : list N) : utf8_seq :=
  match bs with
  | [] => UIncomplete
  | b0 :: r =>
      if (b0 <? 128)%N then UValid b0 1
      else if in_range 194 223 b0 then
        match r with
        | [] => UIncomplete
        | b1 :: _ => if is_cont b1 then UValid ((b0 - 192) * 64 + (b1 - 128)) 2 else UError 1
        end
      else if in_range 224 239 b0 then
        match r with
        | [] => UIncomplete
        | b1 :: r1 =>
            if second3 b0 b1 then
              match r1 with
              | [] => UIncomplete
              | b2 :: _ => if is_cont b2 then UValid ((b0 - 224) * 4096 + (b1 - 128) * 64 + (b2 - 128)) 3 else UError 2
              end
            else UError 1
        end
      else if in_range 240 244 b0 then
        match r with
        | [] => UIncomplete
        | b1 :: r1 =>
            if second4 b0 b1 then
              match r1 with
              | [] => UIncomplete
              | b2 :: r2 =>
                  if is_cont b2 then
                    match r2 with
                    | [] => UIncomplete
                    | b3 :: _ =>
                        if is_cont b3
                        then UValid ((b0 - 240) * 262144 + (b1 - 128) * 4096 + (b2 - 128) * 64 + (b3 - 128)) 4
                        else UError 3
                    end
                  else UError 2
              end
            else UError 1
        end
      else UError 1
  end.

(** [std::str::from_utf8] on [bs]: the valid prefix as (offset, code point) pairs, its
    length [valid_up_to], and the verdict ([None]: Ok; [Some e]: Err with [error_len() = e]). *)
Fixpoint from_utf8 (fuel : nat) (off : nat) (bs : list N) : list (nat * N) * nat * option (option nat) :=
  match bs, fuel with
  | [], _ => ([], off, None)
  | _, O => ([], off, None)
  | _, S fuel' =>
      match utf8_first bs with
      | UValid c n =>
          let '(l, e, v) := from_utf8 fuel' (off + n) (drop n bs) in ((off, c) :: l, e, v)
      | UError n => ([], off, Some (Some n))
      | UIncomplete => ([], off, Some None)
      end
  end.

(** byte_stream.rs:387-434, the UTF-8 loop of [decode_from]. [rest] is
    [buffer[byte_pos..]]; returns the decoded (offset, character) pairs and the final
    [byte_pos]. *)
Fixpoint utf8_loop (fuel : nat) (is_closed : bool) (byte_pos : nat) (rest : list N)
  : list (nat * character) * nat :=
  match rest, fuel with
  | [], _ => ([], byte_pos)
  | _, O => ([], byte_pos)
  | _, S fuel' =>
      let '(l, valid, verdict) := from_utf8 (length rest) 0 rest in
      let pre := map (fun p => (byte_pos + p.1, Ch p.2)) l in
      match verdict with
      | None => (pre, byte_pos + length rest)
      | Some (Some n) =>
          let bp := byte_pos + valid in
          let '(l', e) := utf8_loop fuel' is_closed (bp + n) (drop (valid + n) rest) in
          (pre ++ (bp, Ch REPLACEMENT) :: l', e)
      | Some None =>
          let bp := byte_pos + valid in
          if is_closed then (pre ++ [(bp, Ch REPLACEMENT)], byte_pos + length rest)
          else (pre, bp)
      end
  end.

(** byte_stream.rs:375-386, the Latin-1 loop *)
Fixpoint latin1_loop (high : bool) (byte_pos : nat) (rest : list N) : list (nat * character) * nat :=
  match rest with
  | [] => ([], byte_pos)
  | b :: rest' =>
      let '(l, e) := latin1_loop high (S byte_pos) rest' in
      ((byte_pos, if high && (127 <? b)%N then Ch 63 else Ch b) :: l, e)
  end.

(** byte_stream.rs:651-666 [decode_utf16_char]. [char::from_u32] of a unit outside the
    surrogate range and of a combined pair is always valid. *)
Definition decode_utf16_char (cu : N) (next : option N) : character * nat :=
  if in_range 55296 56319 cu then
    match next with
    | Some low =>
        if in_range 56320 57343 low
        then (Ch (65536 + (cu - 55296) * 1024 + (low - 56320)), 4)
        else (Surrogate cu, 2)
    | None => (Surrogate cu, 2)
    end
  else if in_range 56320 57343 cu then (Surrogate cu, 2)
  else (Ch cu, 2).

(** [u16::from_le_bytes] / [from_be_bytes] *)
Definition unit16 (be : bool) (a b : N) : N := if be then a * 256 + b else b * 256 + a.

(** byte_stream.rs:435-468, the UTF-16 loops *)
Fixpoint utf16_loop (fuel : nat) (be : bool) (byte_pos : nat) (rest : list N) : list (nat * character) * nat :=
  match fuel, rest with
  | S fuel', a :: b :: rest' =>
      let next := match rest' with c :: d :: _ => Some (unit16 be c d) | _ => None end in
      let '(ch, n) := decode_utf16_char (unit16 be a b) next in
      let '(l, e) := utf16_loop fuel' be (byte_pos + n) (drop n rest) in
      ((byte_pos, ch) :: l, e)
  | _, _ => ([], byte_pos)
  end.

Definition decode_loop (s : stream) (byte_pos : nat) : list (nat * character) * nat :=
  let rest := drop byte_pos (buffer s) in
  match enc s with
  | Unknown => ([], length (buffer s))
  | Latin1 => latin1_loop (replace_high_ascii (cfg s)) byte_pos rest
  | UTF8 => utf8_loop (length rest) (closed s) byte_pos rest
  | UTF16LE => utf16_loop (length rest) false byte_pos rest
  | UTF16BE => utf16_loop (length rest) true byte_pos rest
  end.

(** byte_stream.rs:484-486: [while line_starts.last() > i { pop }]. The table is kept in
    order, the loop works from its end. *)
Fixpoint drop_while_gt (i : nat) (rev_ls : list nat) : list nat :=
  match rev_ls with
  | v :: r => if i <? v then drop_while_gt i r else rev_ls
  | [] => []
  end.
Definition pop_after (i : nat) (ls : list nat) : list nat := rev (drop_while_gt i (rev ls)).

(** byte_stream.rs:488-509: the scan from index [i]; [cs] is [chars[i..]]. *)
Fixpoint scan_lines (c : config) (i : nat) (cs : list character) (ls : list nat) : list nat :=
  match cs with
  | [] => ls
  | x :: r =>
      if decide (x = CR /\ cr_lf_as_one c = true /\ head r = Some LF) then
        match r with
        | _ :: r' => scan_lines c (i + 2) r' (ls ++ [i + 2])
        | [] => ls
        end
      else if decide (x = CR /\ replace_cr_as_lf c = true /\ head r <> Some LF) then scan_lines c (S i) r (ls ++ [i + 1])
      else if decide (x = LF) then scan_lines c (S i) r (ls ++ [i + 1])
      else scan_lines c (S i) r ls
  end.

(** byte_stream.rs:477-511 [extend_line_starts] *)
Definition extend_line_starts (s : stream) : stream :=
  let i0 := scanned s in
  let '(i, ls) :=
    if (0 <? i0) && bool_decide (chars s !! (i0 - 1) = Some CR)
    then (i0 - 1, pop_after (i0 - 1) (line_starts s))
    else (i0, line_starts s) in
  mk_stream (buffer s) (chars s) (offs s) (decoded s)
    (scan_lines (cfg s) i (drop i (chars s)) ls) (line_hint s) (length (chars s)) (pos s) (closed s) (enc s) (cfg s).

(** byte_stream.rs:370-472 [decode_from] *)
Definition decode_from (s : stream) (byte_pos : nat) : stream :=
  let '(l, e) := decode_loop s byte_pos in
  extend_line_starts
    (mk_stream (buffer s) (chars s ++ map snd l) (offs s ++ map fst l) e
       (line_starts s) (line_hint s) (scanned s) (pos s) (closed s) (enc s) (cfg s)).

(** byte_stream.rs:354-363 [decode_buffer] *)
Definition decode_buffer (s : stream) : stream :=
  decode_from (mk_stream (buffer s) [] [] 0 [0] 0 0 (pos s) (closed s) (enc s) (cfg s)) 0.

(** * Feeding. [append_str] takes a [&str]; the model accepts any bytes. *)

(** byte_stream.rs:532-537 [append_str] *)
Definition append (s : stream) (bs : list N) : stream :=
  decode_from (set_buffer s (buffer s ++ bs)) (decoded s).

(** byte_stream.rs:539-544, the inherent [close] *)
Definition close (s : stream) : stream := decode_from (set_closed s true) (decoded s).

(** byte_stream.rs:268-270 [reset_stream] *)
Definition reset_stream (s : stream) : stream := set_pos s 0.

(** byte_stream.rs:331-338 [from_str] *)
Definition from_str (bs : list N) (e : encoding) : stream :=
  decode_buffer (set_closed (set_buffer (new e default_config) bs) true).

(** byte_stream.rs:522-530 [read_from_str] *)
Definition read_from_str (s : stream) (bs : list N) (e : option encoding) : stream :=
  let s1 := set_closed (set_buffer s bs) false in
  let s2 := match e with Some e' => set_enc s1 e' | None => s1 end in
  reset_stream (decode_buffer s2).

(** byte_stream.rs:546-551 [read_from_bytes] *)
Definition read_from_bytes (s : stream) (bs : list N) : stream :=
  reset_stream (close (set_buffer s bs)).

(** byte_stream.rs:513-520 [read_from_file] (successful read of [bs]) *)
Definition read_from_file (s : stream) (bs : list N) : stream :=
  reset_stream (decode_buffer (close (set_buffer s bs))).

(** * Reading *)

(** byte_stream.rs:185-191 [read] *)
Definition read (s : stream) : character :=
  match chars s !! pos s with Some c => c | None => StreamEnd end.

(** byte_stream.rs:193-208 [read_and_next] *)
Definition read_and_next (s : stream) : stream * character :=
  match read s with
  | StreamEnd => (s, StreamEnd)
  | ch =>
      let s1 := set_pos s (S (pos s)) in
      if cr_lf_as_one (cfg s) && bool_decide (ch = CR) && bool_decide (read s1 = LF)
      then (set_pos s1 (S (pos s1)), LF)
      else if replace_cr_as_lf (cfg s) && bool_decide (ch = CR) && negb (bool_decide (read s1 = LF))
      then (s1, LF)
      else (s1, ch)
  end.

(** byte_stream.rs:210-217 [look_ahead] *)
Definition look_ahead (s : stream) (k : nat) : character :=
  match chars s !! (pos s + k) with Some c => c | None => StreamEnd end.

(** byte_stream.rs:223-225 [next_n] *)
Definition next_n (s : stream) (k : nat) : stream := set_pos s (Nat.min (pos s + k) (length (chars s))).

(** one round of the loop of byte_stream.rs:231-244 [prev_n] *)
Definition prev (s : stream) : stream :=
  let s1 := set_pos s (pos s - 1) in
  if cr_lf_as_one (cfg s) && bool_decide (read s1 = LF) && (0 <? pos s1)
     && bool_decide (chars s !! (pos s1 - 1) = Some CR)
  then set_pos s1 (pos s1 - 1)
  else s1.
Fixpoint prev_n (n : nat) (s : stream) : stream :=
  match n with O => s | S n' => prev_n n' (prev s) end.

(** [slice::partition_point(|b| b < x)] on a sorted slice: the number of leading elements
    below [x]. *)
Fixpoint partition_point (x : nat) (l : list nat) : nat :=
  match l with
  | [] => 0
  | b :: r => if b <? x then S (partition_point x r) else 0
  end.

(** byte_stream.rs:246-249 [seek_bytes] *)
Definition seek_bytes (s : stream) (o : nat) : stream :=
  set_pos s (Nat.min (partition_point o (offs s)) (length (chars s))).

(** byte_stream.rs:251-256 [tell_bytes] *)
Definition tell_bytes (s : stream) : nat :=
  match offs s !! pos s with Some o => o | None => length (buffer s) end.

(** byte_stream.rs:341-350 [mark], [reset_to_mark] *)
Definition mark (s : stream) : nat := pos s.
Definition reset_to_mark (s : stream) (m : nat) : stream := set_pos s m.

(** byte_stream.rs:258-266 [get_slice] *)
Fixpoint read_many (n : nat) (s : stream) : stream * list character :=
  match n with
  | O => (s, [])
  | S n' => let (s1, c) := read_and_next s in
            let (s2, cs) := read_many n' s1 in (s2, c :: cs)
  end.
Definition get_slice (s : stream) (n : nat) : stream * list character :=
  let m := mark s in
  let (s1, cs) := read_many n s in (reset_to_mark s1 m, cs).

(** byte_stream.rs:293-298, the two loops of [location] *)
Fixpoint walk_back (ls : list nat) (p : nat) (idx : nat) : res nat :=
  match idx with
  | O => Ok 0
  | S i => let* v := of_opt (ls !! idx) in if p <? v then walk_back ls p i else Ok idx
  end.
Fixpoint walk_fwd (fuel : nat) (ls : list nat) (p : nat) (idx : nat) : res nat :=
  if (idx + 1) <? length ls then
    match fuel with
    | O => Diverge
    | S fuel' =>
        let* v := of_opt (ls !! (idx + 1)) in
        if v <=? p then walk_fwd fuel' ls p (idx + 1) else Ok idx
    end
  else Ok idx.

(** byte_stream.rs:613-620 [Location] *)
Record location := mk_loc { l_line : nat; l_column : nat; l_offset : nat }.

(** byte_stream.rs:288-309 [location]; also updates the hint. [line_starts.len() - 1] and
    [char_pos - line_starts[idx]] panic on underflow. *)
Definition get_location (s : stream) : res (stream * location) :=
  match length (line_starts s) with
  | O => Panic
  | S n =>
      let* i1 := walk_back (line_starts s) (pos s) (Nat.min (line_hint s) n) in
      let* idx := walk_fwd (length (line_starts s)) (line_starts s) (pos s) i1 in
      let* st := of_opt (line_starts s !! idx) in
      if pos s <? st then Panic
      else Ok (set_hint s idx, mk_loc (idx + 1) (pos s - st + 1) (tell_bytes s))
  end.

(** byte_stream.rs:595-608 [set_encoding] *)
Definition set_encoding (s : stream) (e : encoding) : stream :=
  if decide (enc s = e) then s
  else
    let o := tell_bytes s in
    let s1 := decode_buffer (set_enc s e) in
    next_n (reset_stream s1) (partition_point o (offs s1)).
