(** The [unsafe] reference casts [from_bytes_ref] and [from_bytes_mut]:
    src/internal_macros.rs:177-187, src/hmac.rs:43-53, src/sha256t.rs:84-94, on
    a memory of bytes.  (ModelTypes.v has them as functions of values.) *)
From Coq Require Import Strings.Byte.
From Verif Require Import Base ModelTypes.

(** Layout of a struct in memory: size, alignment, offset of its field 0. *)
Record layout : Type := mk_layout { l_size : N; l_align : N; l_offset : N }.

(** [[u8; n]] *)
Definition array_layout (n : N) : layout := mk_layout n 1 0.

(** #[repr(transparent)]: src/internal_macros.rs:145, src/sha256t.rs:52.
    hmac::Hash (src/hmac.rs:18-19) has no such attribute; Midstate
    (src/sha256.rs:124-125) has neither the attribute nor the casts. *)
Definition is_transparent (t : hash_ty) : bool :=
  match t with THmac _ | TMidstate => false | _ => true end.

(** What the Rust reference promises about the layout the compiler chooses.
    Transparent: that of the only field that is not zero-sized.  Default
    representation: the field lies within the struct, the alignment is a power
    of two and divides the size.  Nothing is said about padding. *)
Definition layout_allowed (t : hash_ty) (l : layout) : Prop :=
  if is_transparent t then l = array_layout (ty_len t)
  else (exists k, l_align l = 2 ^ k) /\ l_size l mod l_align l = 0 /\ l_offset l + ty_len t <= l_size l.

(** A pointer with the range of addresses it may be used for. *)
Record pointer : Type := mk_pointer { p_addr : N; p_lo : N; p_hi : N }.
(** A reference to [n] bytes may be used for exactly these. *)
Definition ref_to (a n : N) : pointer := mk_pointer a a (a + n).

Definition in_range (p : pointer) (a n : N) : bool := (p_lo p <=? a) && (a + n <=? p_hi p).

Definition memory : Type := N -> byte.
Definition load_bytes (m : memory) (a n : N) : bytes := map (fun i => m (a + N.of_nat i)) (seq 0 (N.to_nat n)).
Definition store_bytes (m : memory) (a : N) (x : bytes) : memory :=
  fun b => if (a <=? b) && (b <? a + len x) then nth (N.to_nat (b - a)) x x00 else m b.

(** Reading and writing [n] bytes through a pointer *)
Definition deref (m : memory) (p : pointer) (n : N) : res bytes :=
  if in_range p (p_addr p) n then Ok (load_bytes m (p_addr p) n) else Panic PUndefined.
Definition assign_bytes (m : memory) (p : pointer) (x : bytes) : res memory :=
  if in_range p (p_addr p) (len x) then Ok (store_bytes m (p_addr p) x) else Panic PUndefined.

(** [&*(ptr as *const T)], [&mut *(ptr as *mut T)]: the address must be aligned
    and the pointer good for [size_of::<T>()] bytes; otherwise undefined
    behaviour.  The new reference is good for the bytes of the [T]. *)
Definition ref_cast (l : layout) (p : pointer) : res pointer :=
  if (p_addr p mod l_align l =? 0) && in_range p (p_addr p) (l_size l)
  then Ok (ref_to (p_addr p) (l_size l)) else Panic PUndefined.

(** from_bytes_ref, from_bytes_mut: the argument is a reference to an array *)
Definition mem_from_bytes_ref (l : layout) (bytes : pointer) : res pointer := ref_cast l bytes.
Definition mem_from_bytes_mut (l : layout) (bytes : pointer) : res pointer := ref_cast l bytes.

(** [&self.0]: as_byte_array, as_bytes, as_ref; src/internal_macros.rs:207-211 *)
Definition mem_as_byte_array (t : hash_ty) (l : layout) (self : pointer) : pointer :=
  ref_to (p_addr self + l_offset l) (ty_len t).

(** [self.0] of a copy: to_byte_array, src/internal_macros.rs:204 *)
Definition mem_to_byte_array (t : hash_ty) (l : layout) (m : memory) (self : pointer) : res bytes :=
  deref m (mem_as_byte_array t l self) (ty_len t).

(** [*self = Hash::from_byte_array(x)]; padding is left alone (it could become
    anything, but is then never part of a transparent type). *)
Definition mem_assign (l : layout) (m : memory) (self : pointer) (x : bytes) : res memory :=
  assign_bytes m (mk_pointer (p_addr self + l_offset l) (p_lo self) (p_hi self)) x.
