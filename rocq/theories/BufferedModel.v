(** Model of the buffered writer, streams::Writer (/repo/include/FlameIDE/Streams/Writer.hpp
    16-95), over a CircularArray (CircularArrayModel) as the buffer.

    The constructor that takes a stream (line 31), setWriterImpl (48) and getWriterImpl (42)
    are declared and not defined, so a program that links constructs its writers with Writer()
    (24). [writerImpl] (66) is then never read. streams::Reader (Reader.hpp 14-74) declares its
    functions and defines none of them: it is not modelled. *)
From Coq Require Import List Arith Bool.
From Verif Require Import Base Store CircularArrayModel.
Import ListNotations.

(** The member [buffer], Writer.hpp 65, and the bytes that have reached the stream behind
    [writerImpl] (66, AbstractByteStreamWriter::write, StreamUtils.hpp 128-135) so far. *)
Record bwriter (A : Type) := BWriter { bw_buffer : circ A; bw_stream : list A }.
Arguments BWriter {A}.
Arguments bw_buffer {A}.
Arguments bw_stream {A}.

Section Buffered.
  Context {A : Type}.
  Variable m : mode.

  (** Writer(), Writer.hpp 24. [stream] is what the stream has got from others before. *)
  Definition bw_new (cap : nat) (stream : list A) : bwriter A := BWriter (ca_new cap) stream.

  (** The loop of putData, Writer.hpp 82-87. The range is given by its values that are left. *)
  Fixpoint put_loop (b : circ A) (range : list A) (countData : nat)
    : outcome (circ A * nat) :=
    if ca_size b =? ca_capacity b then Ok (b, countData)
    else match range with
         | [] => Ok (b, countData)
         | x :: range =>
             let! b := ca_pushBack m b x in
             put_loop b range (S countData)
         end.

  (** putData, Writer.hpp 76-89: the count and the writer afterwards. The range is passed by
      reference and left as it is. *)
  Definition bw_put (w : bwriter A) (range : list A) : outcome (nat * bwriter A) :=
    let! r := put_loop (bw_buffer w) range 0 in
    let '(b, n) := r in Ok (n, BWriter b (bw_stream w)).

  (** flush, Writer.hpp 91-95. *)
  Definition bw_flush (w : bwriter A) : bool * bwriter A := (true, w).

  (** Writer(Writer &&), Writer.hpp 26: the buffer is moved (CircularArray.hpp 278-286), the pointer is
      copied. *)
  Definition bw_move (w : bwriter A) : outcome (bwriter A) :=
    let! b := ca_move m (bw_buffer w) in Ok (BWriter b (bw_stream w)).

  (** Writer(Writer &&) Writer.hpp 26, putData 76-89 and flush 91-95. *)
  Inductive bw_op := BPut (range : list A) | BFlush | BMove.

  (** What a call answers: putData the count (Writer.hpp 88), flush the bool (94), a move nothing. *)
  Inductive bw_answer := ANumber (n : nat) | ABool (b : bool) | ANothing.

  (** One call, Writer.hpp 26, 76-95. *)
  Definition bw_step (w : bwriter A) (op : bw_op) : outcome (bw_answer * bwriter A) :=
    match op with
    | BPut range => let! r := bw_put w range in Ok (ANumber (fst r), snd r)
    | BFlush => let '(b, w) := bw_flush w in Ok (ABool b, w)
    | BMove => let! w := bw_move w in Ok (ANothing, w)
    end.

  (** Of the model: calls in a row and their answers. *)
  Fixpoint bw_run (w : bwriter A) (ops : list bw_op) : outcome (list bw_answer * bwriter A) :=
    match ops with
    | [] => Ok ([], w)
    | op :: ops =>
        let! r := bw_step w op in
        let! r' := bw_run (snd r) ops in
        Ok (fst r :: fst r', snd r')
    end.
End Buffered.
Arguments bw_op : clear implicits.
