(** diff.cxx:106-110, the percentage of outdated packages, in IEEE binary32 arithmetic (rounding to nearest, ties to even) as Flocq defines it;
    x86-64 and the other 64-bit targets evaluate float expressions in float. *)
From Coq Require Import ZArith.
From Flocq Require Import IEEE754.BinarySingleNaN.
Open Scope Z_scope.

Definition f32 : Type := binary_float 24 128.
(** the conversions of unsigned int, size_t and int to float *)
Definition of_int (n : Z) : f32 := binary_normalize 24 128 eq_refl eq_refl mode_NE n 0 false.
(** diff.cxx:108: ((float)m_packagesOK/m_listOfPackages.size())*100 *)
Definition percent (ok size : Z) : f32 := @Bmult 24 128 eq_refl eq_refl mode_NE (@Bdiv 24 128 eq_refl eq_refl mode_NE (of_int ok) (of_int size)) (of_int 100).
(** diff.cxx:109: 100 - (int)p, an unsigned int. None: the conversion of a NaN or infinity to int is undefined *)
Definition ratio (ok size : Z) : option Z := if is_finite (percent ok size) then Some ((100 - Btrunc (percent ok size)) mod 2 ^ 32) else None.
From Verif Require Import Base StrModel MetaModel DbModel IndexModel DiffModel.
(** upgrade.cxx:36-53: the upgrade stops here when ratio() > 20 and --proceed was not given *)
Definition stops (proceed : bool) (j : junk) (repo : list (str * irec)) (m : mem) : option bool :=
  match ratio (Z.of_nat (d_ok (diff j repo m))) (Z.of_nat (length (m_pkgs m))) with
  | Some r => Some (Z.gtb r 20 && negb proceed)%bool
  | None => None
  end.
