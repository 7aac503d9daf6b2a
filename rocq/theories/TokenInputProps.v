(** The input of the HTML tokenizer (C69): property theorems. *)
From stdpp Require Import gmap.
From Verif Require Import Base ByteStreamModel ByteStreamSpec TokenInput.
From Verif Require TokenModel.

(** Whatever the tokenizer does with its stream (read, take back, skip, look ahead, in any order), it gets
    from a stream as the engine sets it up, in any encoding and fed in any way, what the tokenizer model
    gets from the list [input_of] the stream's characters. *)
Theorem C69_list_is_faithful : forall s st ls os,
  reachable s -> cr_lf_as_one (cfg s) = true -> replace_cr_as_lf (cfg s) = false -> pos s = 0 ->
  stream_ops (s, StreamEnd) os = input_ops (TokenModel.new (input_of (chars s)) st ls) os.
Proof. exact stream_input. Qed.
Print Assumptions C69_list_is_faithful.
(** A text saved with LF or with CR LF line ends, in UTF-8 and received in any pieces, is the same input. *)
Theorem C69_line_ends_partial : forall u w encs fs st ls os,
  13%N ∉ u -> w = u \/ w = crlf u -> Forall2 utf8_of w encs -> fed fs = concat encs ->
  stream_ops (reset_stream (close (foldl run_feed (new UTF8 default_config) fs)), StreamEnd) os =
  input_ops (TokenModel.new u st ls) os.
Proof. exact text_input. Qed.
Print Assumptions C69_line_ends_partial.
Example C69_example :
  let fs := [FChunk [97; 13]; FChunk [10; 98]]%N in
  crlf [97; 10; 98]%N = [97; 13; 10; 98]%N /\ Forall2 utf8_of (crlf [97; 10; 98]%N) [[97]; [13]; [10]; [98]]%N /\ fed fs = concat [[97]; [13]; [10]; [98]]%N /\
  stream_ops (reset_stream (close (foldl run_feed (new UTF8 default_config) fs)), StreamEnd) [SRead; SRead; SUnread; SSlice 3; SSkip 1; SRead; SRead; SUnread] =
    [[Some 97]; [Some 10]; []; [Some 10; Some 98; None]; []; [Some 98]; [None]; []]%N.
Proof. split_and!; [done|repeat constructor|done|]. vm_compute. reflexivity. Qed.
(** A CR alone is not turned into an LF, as the HTML standard asks: the tokenizer sees it. *)
Theorem C69_lone_cr_refuted : exists fs,
  fed fs = [97; 13; 98]%N /\ input_of (chars (close (foldl run_feed (new UTF8 default_config) fs))) = [97; 13; 98]%N.
Proof. exists [FChunk [97; 13; 98]%N]. split; [done|]. vm_compute. reflexivity. Qed.
Print Assumptions C69_lone_cr_refuted.
