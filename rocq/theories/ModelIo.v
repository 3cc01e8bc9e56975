(** src/impls.rs: the engines as [Write]rs, and the provided methods of the
    [Write] traits (std::io and bitcoin_io) and [std::io::copy] that drive
    them. *)
From Verif Require Import Base ModelEngine ModelTypes.

Inductive io_error : Set := Interrupted | WriteZero | Other.

(** The closures of [impl_write!], src/impls.rs:12-19 (sha1), 21-28 (sha256),
    30-37 (sha512), 39-46 (ripemd160), 48-55 (siphash24), 83-91 (sha256t), and
    the impls for hmac, 57-67 and 69-79: feed the buffer, return its length.
    [flush] does nothing. *)
Definition io_write (E : HashEngine) (s : he_state E) (buf : bytes)
    : res (he_state E * result N io_error) :=
  let* s := he_input E s buf in
  Ok (s, ROk (len buf)).
Definition io_flush (E : HashEngine) (s : he_state E) : res (he_state E * result unit io_error) :=
  Ok (s, ROk tt).

(** [Write::write_all], provided method: [while !buf.is_empty()] write, drop
    what was written, retry on [Interrupted], fail when nothing was written. *)
Fixpoint write_all_fuel (E : HashEngine) (fuel : nat) (s : he_state E) (buf : bytes)
    : res (he_state E * result unit io_error) :=
  match buf with
  | [] => Ok (s, ROk tt)
  | _ =>
      match fuel with
      | O => Panic POutOfFuel
      | S fuel =>
          let* (s, r) := io_write E s buf in
          match r with
          | ROk n =>
              if n =? 0 then Ok (s, RErr WriteZero)
              else let* buf := slice_from n buf in write_all_fuel E fuel s buf
          | RErr Interrupted => write_all_fuel E fuel s buf
          | RErr e => Ok (s, RErr e)
          end
      end
  end.
Definition write_all (E : HashEngine) (s : he_state E) (buf : bytes) :=
  write_all_fuel E (length buf) s buf.

(** [std::io::Write::write_vectored], provided method: the first non-empty
    buffer only. *)
Definition write_vectored (E : HashEngine) (s : he_state E) (bufs : list bytes) :=
  io_write E s
    (match find (fun b => negb (len b =? 0)) bufs with Some b => b | None => [] end).

(** What successive [read] calls of a reader return.  Reading no byte is the
    end of the file, and so is the end of the list. *)
Inductive read_result : Set := ReadData (b : bytes) | ReadInterrupted | ReadError.

(** [std::io::copy]: the bytes copied, or the error. *)
Fixpoint io_copy (E : HashEngine) (s : he_state E) (reads : list read_result) (written : N)
    : res (he_state E * result N io_error) :=
  match reads with
  | [] => Ok (s, ROk written)
  | ReadData [] :: _ => Ok (s, ROk written)
  | ReadData b :: reads =>
      let* (s, r) := write_all E s b in
      match r with
      | ROk _ => io_copy E s reads (written + len b)
      | RErr e => Ok (s, RErr e)
      end
  | ReadInterrupted :: reads => io_copy E s reads written
  | ReadError :: _ => Ok (s, RErr Other)
  end.

(** A program that writes to an engine. *)
Inductive io_op : Set :=
| OpWrite (b : bytes)
| OpWriteAll (b : bytes)
| OpWriteVectored (bs : list bytes)
| OpFlush
| OpCopy (reads : list read_result)
| OpInput (b : bytes).     (* HashEngine::input, mixed with the above *)

(** What the caller sees of one operation: the count returned, or an error. *)
Definition run_op (E : HashEngine) (s : he_state E) (op : io_op)
    : res (he_state E * result N io_error) :=
  match op with
  | OpWrite b => io_write E s b
  | OpWriteAll b =>
      let* (s, r) := write_all E s b in
      Ok (s, match r with ROk _ => ROk 0 | RErr e => RErr e end)
  | OpWriteVectored bs => write_vectored E s bs
  | OpFlush =>
      let* (s, r) := io_flush E s in
      Ok (s, match r with ROk _ => ROk 0 | RErr e => RErr e end)
  | OpCopy reads => io_copy E s reads 0
  | OpInput b => let* s := he_input E s b in Ok (s, ROk 0)
  end.

Fixpoint run_ops (E : HashEngine) (s : he_state E) (ops : list io_op)
    : res (he_state E * list (result N io_error)) :=
  match ops with
  | [] => Ok (s, [])
  | op :: ops =>
      let* (s, r) := run_op E s op in
      let* (s, rs) := run_ops E s ops in
      Ok (s, r :: rs)
  end.
