(** Outcomes, machine integers and slices used by every part of the model. *)
From Coq Require Export List ZArith Lia Bool.
Export ListNotations.
Open Scope Z_scope.

(** Why a Rust panic happens.  The constructors only classify panics for
    readability; no theorem depends on the classification except where a
    witness names it. *)
Inductive panic :=
| PIndex          (* slice / array / ArrayVec index out of bounds *)
| POverflow       (* arithmetic overflow with overflow checks on *)
| PUnwrap         (* Option::unwrap / expect on None *)
| PAssert         (* assert! / debug_assert! *)
| PUnimplemented  (* unimplemented! *)
| PCapacity       (* ArrayVec::push beyond capacity *)
| PMissing        (* "Missing ... table" panics of lib.rs *)
| PComponents     (* "Invalid component count" of color_conversion.rs:48 *)
| PFuel.          (* model artefact: recursion fuel exhausted; proved unreachable *)

(** Errors carried by [Result::Err] / parse errors.  One constructor per
    message of the code (texts and positions are not modelled). *)
Inductive error :=
| EEof             (* unexpected end of input *)
| EMarker          (* marker.rs:87 expected "marker" *)
| ESampling        (* lib.rs:247 *)
| EDhtClass        (* lib.rs:386 *)
| EDhtDest         (* lib.rs:393 *)
| EDqtPrecision    (* lib.rs:523 *)
| EDqtDest         (* lib.rs:529 *)
| EHuffsize        (* huffman.rs:229 *)
| EHuffCode        (* huffman.rs:80 *)
| ESosCount        (* lib.rs:593 *)
| ESosNoFrame      (* lib.rs:609 and 780 *)
| ESosComponent    (* lib.rs:619 *)
| ESosOrder        (* lib.rs:628 *)
| ESosDuplicate    (* lib.rs:633 *)
| EAdobe           (* lib.rs:830-839 *)
| EDcCategory      (* lib.rs:1086 *)
| EOutOfBits       (* lib.rs:1142 *)
| EUnsetDc         (* lib.rs:1238 *)
| EUnsetAc         (* lib.rs:1254 *)
| ERstNumber       (* lib.rs:1334 *)
| ERstMarker       (* lib.rs:1358 *)
| EUnsupported     (* upsampler.rs:107 NonIntegerSubsamplingRatio *)
| EAdobeMissing.   (* color_conversion.rs:45 *)

Inductive out (A : Type) :=
| Ok (a : A)
| Fail (e : error)
| Panic (p : panic)
| UB.               (* undefined behaviour: unchecked access out of bounds, uninitialised read *)
Arguments Ok {A}. Arguments Fail {A}. Arguments Panic {A}. Arguments UB {A}.

Definition bind {A B} (x : out A) (f : A -> out B) : out B :=
  match x with
  | Ok a => f a
  | Fail e => Fail e
  | Panic p => Panic p
  | UB => UB
  end.
Notation "'let*' x ':=' e 'in' k" := (bind e (fun x => k))
  (at level 200, x pattern, e at level 100, k at level 200, right associativity).

(** A condition that panics when false. *)
Definition assert_ (b : bool) (p : panic) : out unit := if b then Ok tt else Panic p.

(** A [debug_assert!]: only checked in a debug build. *)
Definition debug_assert (dbg b : bool) : out unit :=
  if dbg then assert_ b PAssert else Ok tt.

(** ** Machine integers *)
Definition u8_max : Z := 255.
Definition wrap (bits : Z) (x : Z) : Z := x mod 2 ^ bits.
(** Signed wrap-around: the representative in [-2^(bits-1), 2^(bits-1)). *)
Definition swrap (bits : Z) (x : Z) : Z :=
  (x + 2 ^ (bits - 1)) mod 2 ^ bits - 2 ^ (bits - 1).
Definition w32 : Z -> Z := swrap 32.      (* Wrapping<i32> *)
Definition w16 : Z -> Z := swrap 16.      (* i16 wrapping_add, i16 << *)

(** Unsigned subtraction: panics in a debug build when it underflows, wraps otherwise. *)
Definition usub (dbg : bool) (bits a b : Z) : out Z :=
  if a <? b then (if dbg then Panic POverflow else Ok (wrap bits (a - b)))
  else Ok (a - b).

(** Unsigned addition with the same convention. *)
Definition uadd (dbg : bool) (bits a b : Z) : out Z :=
  if 2 ^ bits <=? a + b then (if dbg then Panic POverflow else Ok (wrap bits (a + b)))
  else Ok (a + b).

(** ** Slices *)
(** [xs[i]]: bounds-checked indexing. *)
Definition index {A} (xs : list A) (i : Z) : out A :=
  if i <? 0 then Panic PIndex
  else match nth_error xs (Z.to_nat i) with Some x => Ok x | None => Panic PIndex end.

(** [*xs.get_unchecked(i)]. *)
Definition index_unchecked {A} (xs : list A) (i : Z) : out A :=
  if i <? 0 then UB
  else match nth_error xs (Z.to_nat i) with Some x => Ok x | None => UB end.

(** In-place update of position [i]; identity when out of range (callers check). *)
Fixpoint upd {A} (xs : list A) (i : nat) (v : A) : list A :=
  match xs, i with
  | [], _ => []
  | _ :: r, O => v :: r
  | x :: r, S j => x :: upd r j v
  end.

(** [xs[i] = v] with the bounds check. *)
Definition store {A} (xs : list A) (i : Z) (v : A) : out (list A) :=
  if (0 <=? i) && (i <? Z.of_nat (length xs)) then Ok (upd xs (Z.to_nat i) v)
  else Panic PIndex.

(** [*xs.get_unchecked_mut(i) = v]. *)
Definition store_unchecked {A} (xs : list A) (i : Z) (v : A) : out (list A) :=
  if (0 <=? i) && (i <? Z.of_nat (length xs)) then Ok (upd xs (Z.to_nat i) v)
  else UB.

(** [&xs[a..b]] with the bounds check. *)
Definition slice {A} (xs : list A) (a b : Z) : out (list A) :=
  if (0 <=? a) && (a <=? b) && (b <=? Z.of_nat (length xs))
  then Ok (firstn (Z.to_nat (b - a)) (skipn (Z.to_nat a) xs))
  else Panic PIndex.

(** [&xs[a..]]. *)
Definition slice_from {A} (xs : list A) (a : Z) : out (list A) :=
  slice xs a (Z.of_nat (length xs)).

(** Monadic map. *)
Fixpoint mapM {A B} (f : A -> out B) (xs : list A) : out (list B) :=
  match xs with
  | [] => Ok []
  | x :: r => let* y := f x in let* ys := mapM f r in Ok (y :: ys)
  end.

Definition lenZ {A} (xs : list A) : Z := Z.of_nat (length xs).

(** [0, 1, ..., n-1] as integers ([0..n] in Rust). *)
Definition zrange (n : Z) : list Z := map Z.of_nat (seq 0 (Z.to_nat n)).

Definition is_byte (b : Z) : Prop := 0 <= b < 256.
