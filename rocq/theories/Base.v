(** Bytes, integers and build modes: the vocabulary of the model.

    Nothing here is specific to the crate except where cited.  A byte slice, a [Bytes] or the contents
    of a [BytesMut] is a [list Z]; every Rust integer is a [Z]. *)

From Coq Require Export ZArith List Bool Lia.
From Coq Require Import Ascii String.
Export ListNotations.
Open Scope Z_scope.

(** Build mode.  With overflow checks (debug profile) an integer subtraction that underflows panics; without
    them (release profile) it wraps.  The crate's Cargo.toml (/repo/Cargo.toml) does not set the flag, so both
    occur. *)
Inductive mode := Debug | Release.

(** Why a panic happened. *)
Inductive panic :=
| PSlice          (* slice index or range out of bounds *)
| PArith          (* integer overflow check *)
| PUnimplemented  (* unimplemented!() *)
| PChrono         (* Utc.timestamp(..) of an unrepresentable instant *)
| PCapacity.      (* bytes 0.4 put_* beyond the capacity of the buffer *)

Definition bytes := list Z.

(** A value that fits [u8]. *)
Definition byte_ok (b : Z) : Prop := 0 <= b < 256.
Definition bytes_ok (l : bytes) : Prop := Forall byte_ok l.

(** [slice.len()] *)
Definition zlen {A} (l : list A) : Z := Z.of_nat (List.length l).
(** [&slice[..n]] and [&slice[n..]] for 0 <= n <= len *)
Definition ztake {A} (n : Z) (l : list A) : list A := firstn (Z.to_nat n) l.
Definition zdrop {A} (n : Z) (l : list A) : list A := skipn (Z.to_nat n) l.

Fixpoint bytes_eqb (a b : bytes) : bool :=
  match a, b with
  | [], [] => true
  | x :: a', y :: b' => (x =? y) && bytes_eqb a' b'
  | _, _ => false
  end.

(** Big-endian bytes of [v mod 256^n]: what [put_u16_be], [put_i64_be], ... write (bytes 0.4). *)
Fixpoint be_bytes (n : nat) (v : Z) : bytes :=
  match n with
  | O => []
  | S k => be_bytes k (v / 256) ++ [v mod 256]
  end.

(** Unsigned big-endian value: [BigEndian::read_u16] etc. (byteorder). *)
Definition be_val (l : bytes) : Z := fold_left (fun a b => a * 256 + b) l 0.

(** Two's complement reading of an unsigned value of [bits] bits ([read_i64], [as i8]). *)
Definition to_signed (bits : Z) (x : Z) : Z :=
  if x <? 2 ^ (bits - 1) then x else x - 2 ^ bits.

(** Integer types. *)
Definition u8_ok (v : Z) : Prop := 0 <= v < 2 ^ 8.
Definition u16_ok (v : Z) : Prop := 0 <= v < 2 ^ 16.
Definition u32_ok (v : Z) : Prop := 0 <= v < 2 ^ 32.
Definition u64_ok (v : Z) : Prop := 0 <= v < 2 ^ 64.
Definition i8_ok (v : Z) : Prop := - 2 ^ 7 <= v < 2 ^ 7.
Definition i16_ok (v : Z) : Prop := - 2 ^ 15 <= v < 2 ^ 15.
Definition i32_ok (v : Z) : Prop := - 2 ^ 31 <= v < 2 ^ 31.
Definition i64_ok (v : Z) : Prop := - 2 ^ 63 <= v < 2 ^ 63.

(** A Rust string literal as its bytes (ASCII only in this crate). *)
Fixpoint s2b (s : string) : bytes :=
  match s with
  | EmptyString => []
  | String c r => Z.of_N (N_of_ascii c) :: s2b r
  end.

(** [iter().fold(0, |r, x| r + f(x))] *)
Section ZSum.
  Context {A : Type} (f : A -> Z).
  Fixpoint zsum (l : list A) : Z :=
    match l with
    | [] => 0
    | x :: r => f x + zsum r
    end.
End ZSum.
