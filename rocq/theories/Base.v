(** Base vocabulary shared by all models: results, bytes, fixed-width
    arithmetic and big-endian numbers.  Go's [encoding/binary] is modelled by
    [be]/[unbe]; slices by lists. *)
From Coq Require Export String.
From Coq Require Export NArith ZArith Lia Bool List.
From Coq Require Export ZifyBool ZifyNat ZifyN.
Export ListNotations.
#[global] Open Scope N_scope.

(** Outcome of a Go call: a value, an [error] value (by its text) or a panic. *)
Inductive res (A : Type) : Type :=
| Ok (a : A)
| Err (e : string)
| Panic.
Arguments Ok {A} a.
Arguments Err {A} e%string.
Arguments Panic {A}.

Definition bind {A B} (r : res A) (k : A -> res B) : res B :=
  match r with Ok a => k a | Err e => Err e | Panic => Panic end.
Notation "x <- r ;; k" := (bind r (fun x => k))
  (at level 60, r at next level, right associativity).

(** Bytes, strings and slices. *)
Definition byte := N.
Definition bytes := list N.
Definition is_byte (b : N) : Prop := b < 256.
Definition bytes_ok (l : bytes) : Prop := Forall is_byte l.

(** Go [len], slicing [s[:n]] and [s[n:]] (without the bounds check). *)
Definition len {A} (l : list A) : N := N.of_nat (List.length l).
Fixpoint takeN {A} (n : N) (l : list A) : list A :=
  match l with
  | [] => []
  | x :: l' => if n =? 0 then [] else x :: takeN (n - 1) l'
  end.
Fixpoint dropN {A} (n : N) (l : list A) : list A :=
  match l with
  | [] => []
  | x :: l' => if n =? 0 then x :: l' else dropN (n - 1) l'
  end.

(** [s[n:]] with its bounds check. *)
Definition slice_from {A} (n : N) (l : list A) : res (list A) :=
  if n <=? len l then Ok (dropN n l) else Panic.
(** [s[:n]] followed (as everywhere in the modelled code) by [s[n:]]: the
    second slice fails exactly when [n > len s], so the pair does. *)
Definition split_at {A} (n : N) (l : list A) : res (list A * list A) :=
  if n <=? len l then Ok (takeN n l, dropN n l) else Panic.

(** Unsigned conversions. *)
Definition u8 (n : N) : N := n mod 256.
Definition u16 (n : N) : N := n mod 65536.
Definition u32 (n : N) : N := n mod 4294967296.
Definition u64 (n : N) : N := n mod 18446744073709551616.
(** [a - b] in uint32. *)
Definition sub32 (a b : N) : N := u32 (a + 4294967296 - u32 b).

(** Big-endian encoding of the low [8k] bits of [n]; decoding. *)
Fixpoint be (k : nat) (n : N) : bytes :=
  match k with
  | O => []
  | S k' => (n / 256 ^ N.of_nat k') mod 256 :: be k' n
  end.
Definition unbe (l : bytes) : N := fold_left (fun a b => a * 256 + b) l 0.

(** [binary.BigEndian.UintX(payload)] then [payload = payload[k:]]. *)
Definition get_be (k : nat) (l : bytes) : res (N * bytes) :=
  if (k <=? List.length l)%nat
  then Ok (unbe (firstn k l), skipn k l) else Panic.
