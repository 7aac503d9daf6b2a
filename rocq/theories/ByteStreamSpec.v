(** Specification vocabulary for the byte stream, independent of the decoder of
    ByteStreamModel.v: what UTF-8 is, what a lossy decoding of arbitrary bytes is, and where
    lines start. *)
From Verif Require Import Base ByteStreamModel.

(** * UTF-8, from the Unicode standard (table 3-6). [utf8_of c bs]: the scalar value [c] is
    encoded by the bytes [bs]. *)
Inductive utf8_of : N -> list N -> Prop :=
| U1 c : (c < 128)%N -> utf8_of c [c]
| U2 c x y : (128 <= c < 2048)%N -> c = (x * 64 + y)%N -> (y < 64)%N ->
    utf8_of c [192 + x; 128 + y]%N
| U3 c x y z : (2048 <= c < 65536)%N -> ~ (55296 <= c <= 57343)%N ->
    c = (x * 4096 + y * 64 + z)%N -> (y < 64)%N -> (z < 64)%N ->
    utf8_of c [224 + x; 128 + y; 128 + z]%N
| U4 c x y z w : (65536 <= c <= 1114111)%N ->
    c = (x * 262144 + y * 4096 + z * 64 + w)%N -> (y < 64)%N -> (z < 64)%N -> (w < 64)%N ->
    utf8_of c [240 + x; 128 + y; 128 + z; 128 + w]%N.

(** [bs] starts like a well-formed sequence: it is a non-empty prefix of one. *)
Definition utf8_prefix (bs : list N) : Prop :=
  bs <> [] /\ exists c full rest, utf8_of c full /\ full = bs ++ rest.

(** Lossy decoding: a well-formed sequence gives its scalar value; otherwise the longest
    prefix that could have started one (at least one byte) gives one U+FFFD. [off] is the
    byte offset of [bs]. *)
Inductive lossy : nat -> list N -> list (nat * character) -> Prop :=
| lossy_nil off : lossy off [] []
| lossy_good off c seq rest l :
    utf8_of c seq -> lossy (off + length seq) rest l ->
    lossy off (seq ++ rest) ((off, Ch c) :: l)
| lossy_bad off bad rest l :
    bad <> [] ->
    (forall c seq tail, utf8_of c seq -> bad ++ rest <> seq ++ tail) ->
    (length bad = 1 \/ utf8_prefix bad) ->
    (forall b rest', rest = b :: rest' -> ~ utf8_prefix (bad ++ [b])) ->
    lossy (off + length bad) rest l ->
    lossy off (bad ++ rest) ((off, Ch 65533) :: l).

(** * Lines. Position [q] begins a new line: the character before it is a line feed, or (when
    carriage returns count as line feeds) a carriage return that is not part of CR LF. *)
Definition line_break (c : config) (cs : list character) (q : nat) : bool :=
  match q with
  | O => false
  | S p =>
      bool_decide (cs !! p = Some (Ch 10))
      || (replace_cr_as_lf c && bool_decide (cs !! p = Some (Ch 13)) && negb (bool_decide (cs !! q = Some (Ch 10))))
  end.

(** The line of position [p], counted from one. *)
Definition line_of (c : config) (cs : list character) (p : nat) : nat :=
  1 + length (filter (fun q => line_break c cs q = true) (seq 1 p)).

(** [q] is where the line of position [p] starts. *)
Definition line_start_of (c : config) (cs : list character) (p q : nat) : Prop :=
  q <= p /\ (q = 0 \/ line_break c cs q = true) /\ forall r, q < r <= p -> line_break c cs r = false.

(** * Histories *)

(** Operations that move around in or add to a stream. *)
Inductive rop :=
| RNext | RNextN (k : nat) | RPrevN (k : nat) | RSeek (o : nat) | RReset | RMark (p : nat)
| RLocation | RSlice (n : nat).

Definition loc_effect (s : stream) : stream :=
  match get_location s with Ok (s', _) => s' | _ => s end.

Definition run_rop (s : stream) (o : rop) : stream :=
  match o with
  | RNext => fst (read_and_next s)
  | RNextN k => next_n s k
  | RPrevN k => prev_n k s
  | RSeek o => seek_bytes s o
  | RReset => reset_stream s
  | RMark p => reset_to_mark s p
  | RLocation => loc_effect s
  | RSlice n => fst (get_slice s n)
  end.

Inductive op :=
| ORead (o : rop)
| OAppend (bs : list N)
| OClose
| OCloseFlag                        (* the trait's [close]: sets the flag only *)
| OSetEncoding (e : encoding)
| OReadFromStr (bs : list N) (e : option encoding)
| OReadFromFile (bs : list N).

Definition run_op (s : stream) (o : op) : stream :=
  match o with
  | ORead o => run_rop s o
  | OAppend bs => append s bs
  | OClose => close s
  | OCloseFlag => set_closed s true
  | OSetEncoding e => set_encoding s e
  | OReadFromStr bs e => read_from_str s bs e
  | OReadFromFile bs => read_from_file s bs
  end.

Definition run_ops (s : stream) (os : list op) : stream := foldl run_op s os.

(** Streams that can be obtained from a new one. *)
Definition reachable (s : stream) : Prop := exists e c os, s = run_ops (new e c) os.

(** Feeding with reads in between: the bytes fed by a list of operations. *)
Inductive feed := FChunk (bs : list N) | FRead (o : rop).
Definition run_feed (s : stream) (f : feed) : stream :=
  match f with FChunk bs => append s bs | FRead o => run_rop s o end.
Definition fed (fs : list feed) : list N :=
  concat (map (fun f => match f with FChunk bs => bs | FRead _ => [] end) fs).

(** [k] falls inside a surrogate pair of the decoded text [l] (offset, character): at or
    after its second half. *)
Definition splits_pair (l : list (nat * character)) (k : nat) : Prop :=
  exists o c, (o, Ch c) ∈ l /\ (65536 <= c)%N /\ o + 2 <= k < o + 4.

(** The positions at which the fed text was cut. *)
Fixpoint cuts (at_ : nat) (fs : list feed) : list nat :=
  match fs with
  | [] => []
  | FChunk bs :: fs' => (at_ + length bs) :: cuts (at_ + length bs) fs'
  | FRead _ :: fs' => cuts at_ fs'
  end.
