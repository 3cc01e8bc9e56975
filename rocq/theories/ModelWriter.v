(** The provided methods of the [Write] traits and [std::io::copy] of ModelIo.v
    over any implementation of [write] and [flush], so that they can be run
    with the translated text of src/impls.rs (GenIo.v). *)
From Verif Require Import Base ModelEngine ModelTypes ModelIo.

(** [write] and [flush], in the form tools/rs2v.py gives them *)
Record writer (S : Type) : Type := {
  w_write : S -> bytes -> res (result N io_error * S);
  w_flush : S -> result unit io_error * S
}.
Arguments w_write {S} _ _ _.
Arguments w_flush {S} _ _.

(** [Write::write_all] (std::io and bitcoin_io), as in ModelIo.v *)
Fixpoint w_write_all_fuel {S} (w : writer S) (fuel : nat) (s : S) (buf : bytes) : res (result unit io_error * S) :=
  match buf with
  | [] => Ok (ROk tt, s)
  | _ =>
      match fuel with
      | O => Panic POutOfFuel
      | Datatypes.S fuel =>
          let* (r, s) := w_write w s buf in
          match r with
          | ROk n =>
              if n =? 0 then Ok (RErr WriteZero, s)
              else let* buf := slice_from n buf in w_write_all_fuel w fuel s buf
          | RErr Interrupted => w_write_all_fuel w fuel s buf
          | RErr e => Ok (RErr e, s)
          end
      end
  end.
Definition w_write_all {S} (w : writer S) (s : S) (buf : bytes) := w_write_all_fuel w (length buf) s buf.

(** [std::io::Write::write_vectored] *)
Definition w_write_vectored {S} (w : writer S) (s : S) (bufs : list bytes) :=
  w_write w s (match find (fun b => negb (len b =? 0)) bufs with Some b => b | None => [] end).

(** [std::io::copy] *)
Fixpoint w_copy {S} (w : writer S) (s : S) (reads : list read_result) (written : N) : res (result N io_error * S) :=
  match reads with
  | [] => Ok (ROk written, s)
  | ReadData [] :: _ => Ok (ROk written, s)
  | ReadData b :: reads =>
      let* (r, s) := w_write_all w s b in
      match r with
      | ROk _ => w_copy w s reads (written + len b)
      | RErr e => Ok (RErr e, s)
      end
  | ReadInterrupted :: reads => w_copy w s reads written
  | ReadError :: _ => Ok (RErr Other, s)
  end.

(** One operation, and a program of them; [input] is [HashEngine::input]. *)
Definition w_step {S} (w : writer S) (input : S -> bytes -> res S) (s : S) (op : io_op) : res (result N io_error * S) :=
  match op with
  | OpWrite b => w_write w s b
  | OpWriteAll b =>
      let* (r, s) := w_write_all w s b in
      Ok (match r with ROk _ => ROk 0 | RErr e => RErr e end, s)
  | OpWriteVectored bs => w_write_vectored w s bs
  | OpFlush =>
      let (r, s) := w_flush w s in
      Ok (match r with ROk _ => ROk 0 | RErr e => RErr e end, s)
  | OpCopy reads => w_copy w s reads 0
  | OpInput b => let* s := input s b in Ok (ROk 0, s)
  end.
Fixpoint drive {S} (w : writer S) (input : S -> bytes -> res S) (s : S) (ops : list io_op)
    : res (list (result N io_error) * S) :=
  match ops with
  | [] => Ok ([], s)
  | op :: ops =>
      let* (r, s) := w_step w input s op in
      let* (rs, s) := drive w input s ops in
      Ok (r :: rs, s)
  end.
