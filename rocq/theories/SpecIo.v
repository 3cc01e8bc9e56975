(** What a program that writes to a [Write]r hands over, in order, and what it
    is told: the contract of the traits, for a writer that accepts everything. *)
From Verif Require Import Base ModelTypes ModelIo ModelAll.

(** The bytes a reader gives before the end of the file or an error. *)
Fixpoint read_before_end (reads : list read_result) : bytes :=
  match reads with
  | ReadData [] :: _ | ReadError :: _ | [] => []
  | ReadData b :: reads => b ++ read_before_end reads
  | ReadInterrupted :: reads => read_before_end reads
  end.
Fixpoint read_fails (reads : list read_result) : bool :=
  match reads with
  | ReadError :: _ => true
  | [] | ReadData [] :: _ => false
  | _ :: reads => read_fails reads
  end.
Fixpoint first_nonempty (bs : list bytes) : bytes :=
  match bs with
  | [] => []
  | [] :: bs => first_nonempty bs
  | b :: _ => b
  end.

Definition written (op : io_op) : bytes :=
  match op with
  | OpWrite b | OpWriteAll b | OpInput b => b
  | OpWriteVectored bs => first_nonempty bs
  | OpFlush => []
  | OpCopy reads => read_before_end reads
  end.
(** The whole buffer is reported as written; no error, but the reader's own. *)
Definition reported (op : io_op) : result N io_error :=
  match op with
  | OpWrite b => ROk (len b)
  | OpWriteVectored bs => ROk (len (first_nonempty bs))
  | OpCopy reads => if read_fails reads then RErr Other else ROk (len (read_before_end reads))
  | OpWriteAll _ | OpFlush | OpInput _ => ROk 0
  end.

(** Every buffer of the program is a slice. *)
Definition op_ok (c : config) (op : io_op) : Prop :=
  match op with
  | OpWrite b | OpWriteAll b | OpInput b => slice c b
  | OpWriteVectored bs => Forall (slice c) bs
  | OpFlush => True
  | OpCopy reads => Forall (fun r => match r with ReadData b => slice c b | _ => True end) reads
  end.
