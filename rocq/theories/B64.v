(** IEEE binary64 as a [Num], from the standard library's specification of
    floating-point arithmetic (SpecFloat; round to nearest, ties to even).
    exp, log, cos, acos and pow come from the platform's mathematical library,
    which IEEE 754 does not determine: they are parameters. *)
From Coq Require Import ZArith Bool SpecFloat.
From Verif Require Import Base NumSig.

Definition b64 : Type := spec_float.
Definition prec64 : Z := 53.
Definition emax64 : Z := 1024.

Record libm := { m_exp : b64 -> b64; m_log : b64 -> b64; m_cos : b64 -> b64; m_acos : b64 -> b64; m_pow : b64 -> b64 -> b64 }.

(** the double nearest to m / d *)
Definition b64_ratio (m : Z) (d : positive) : b64 :=
  match m with
  | Z0 => S754_zero false
  | Zpos p => SFdiv prec64 emax64 (S754_finite false p 0) (S754_finite false d 0)
  | Zneg p => SFdiv prec64 emax64 (S754_finite true p 0) (S754_finite false d 0)
  end.
Definition b64_nan (x : b64) : bool := match x with S754_nan => true | _ => false end.
Definition b64_inf (x : b64) : bool := match x with S754_infinity _ => true | _ => false end.
Definition signed (s : bool) (z : Z) : Z := if s then (- z)%Z else z.
(** toward zero *)
Definition b64_trunc (x : b64) : option Z :=
  match x with
  | S754_zero _ => Some 0%Z
  | S754_finite s m e => Some (signed s (if (0 <=? e)%Z then Zpos m * 2 ^ e else Zpos m / 2 ^ (- e))%Z)
  | _ => None
  end.
(** to the nearest integer, ties to even *)
Definition half_even (m : Z) (d : Z) : Z :=
  let q := (m / d)%Z in
  match (2 * (m mod d) ?= d)%Z with Lt => q | Gt => (q + 1)%Z | Eq => if Z.even q then q else (q + 1)%Z end.
Definition b64_round (x : b64) : option Z :=
  match x with
  | S754_zero _ => Some 0%Z
  | S754_finite s m e => Some (signed s (if (0 <=? e)%Z then Zpos m * 2 ^ e else half_even (Zpos m) (2 ^ (- e)))%Z)
  | _ => None
  end.

Definition B64N (lib : libm) : Num := {|
  num := b64;
  nadd := SFadd prec64 emax64; nsub := SFsub prec64 emax64; nmul := SFmul prec64 emax64; ndiv := SFdiv prec64 emax64;
  nneg := SFopp; nltb := SFltb; nleb := SFleb; neqb := SFeqb;
  nexp := m_exp lib; nlog := m_log lib; ncos := m_cos lib; nacos := m_acos lib;
  npi := b64_ratio 3141592653589793 1000000000000000;
  npowr := m_pow lib; nlit := b64_ratio; nnan := S754_nan; nisnan := b64_nan; nisinf := b64_inf;
  ntrunc := b64_trunc; nround := b64_round
|}.
