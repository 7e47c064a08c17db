(** Property C117: the central wavelength of a band in IEEE doubles. *)
From Coq Require Import Reals Lra Lia ZArith String List Bool SpecFloat Sorting.Sorted.
From Flocq Require Import Core BinarySingleNaN.
From Verif Require Import Base NumSig B64 M_Tables M_Utils S_B64 S_Effective S_SolarDoubles P_B64ops P_B64lib P_CentralDoubles Samples15.
Import ListNotations.
Local Open Scope R_scope.

(** The unweighted central wavelength is the mean wavelength of the sampled curve
    to 5 parts in 10^12. *)
Theorem C117_mean : forall lib (ws rs : list b64), curve_ok (map to_R ws) (map to_R rs) -> (Z.of_nat (List.length ws) <= 10000)%Z ->
  Forall (double_between (1 / 10 ^ 12) (10 ^ 12)) ws -> Forall irradiance_like rs ->
  exists c, get_central_wave (N := B64N lib) ws rs (WScalar (@n1 (B64N lib))) = Ok c /\ within (5 / 10 ^ 12) c (mean_wavelength (map to_R ws) (map to_R rs)).
Proof. exact mean64. Qed.
Print Assumptions C117_mean.

(** So is the one the Rayleigh correction uses, with weights 1 / wavelength^4. *)
Theorem C117_rayleigh : forall lib (ws rs : list b64), curve_ok (map to_R ws) (map to_R rs) -> (Z.of_nat (List.length ws) <= 10000)%Z ->
  Forall (double_between (1 / 10 ^ 12) (10 ^ 12)) ws -> Forall irradiance_like rs ->
  exists c, get_central_wave (N := B64N lib) ws rs (WArray (map (fun w => ndiv (B64N lib) (nlit (B64N lib) 1 1) (@npow (B64N lib) w 4)) ws)) = Ok c /\
    within (5 / 10 ^ 12) c (rayleigh_wavelength (map to_R ws) (map to_R rs)).
Proof. exact rayleigh64. Qed.
Print Assumptions C117_rayleigh.

(** Both lie in the band, the Rayleigh one on the short side, up to rounding. *)
Theorem C117_order : forall lib (ws rs : list b64) m r, curve_ok (map to_R ws) (map to_R rs) -> (Z.of_nat (List.length ws) <= 10000)%Z ->
  Forall (double_between (1 / 10 ^ 12) (10 ^ 12)) ws -> Forall irradiance_like rs ->
  get_central_wave (N := B64N lib) ws rs (WScalar (@n1 (B64N lib))) = Ok m ->
  get_central_wave (N := B64N lib) ws rs (WArray (map (fun w => ndiv (B64N lib) (nlit (B64N lib) 1 1) (@npow (B64N lib) w 4)) ws)) = Ok r ->
  hd 0 (map to_R ws) * (1 - 5 / 10 ^ 12) <= to_R r /\ to_R r <= to_R m * (1 + 2 / 10 ^ 11) /\ to_R m <= last (map to_R ws) 0 * (1 + 5 / 10 ^ 12).
Proof. exact central_order64. Qed.
Print Assumptions C117_order.

(** responses 1 and 2 at 1 and 2 um: mean 5/3 um, Rayleigh mean 10/9 um *)
Example C117_case : exists m r,
  get_central_wave (N := B64N rounded_lib) [b64_ratio 1 1; b64_ratio 2 1] [b64_ratio 1 1; b64_ratio 2 1] (WScalar (@n1 (B64N rounded_lib))) = Ok m /\ within (5 / 10 ^ 12) m (5 / 3) /\
  get_central_wave (N := B64N rounded_lib) [b64_ratio 1 1; b64_ratio 2 1] [b64_ratio 1 1; b64_ratio 2 1]
    (WArray (map (fun w => ndiv (B64N rounded_lib) (nlit (B64N rounded_lib) 1 1) (@npow (B64N rounded_lib) w 4)) [b64_ratio 1 1; b64_ratio 2 1])) = Ok r /\ within (5 / 10 ^ 12) r (10 / 9) /\
  1 * (1 - 5 / 10 ^ 12) <= to_R r /\ to_R r <= to_R m * (1 + 2 / 10 ^ 11) /\ to_R m <= 2 * (1 + 5 / 10 ^ 12).
Proof.
  destruct small_ints as (E1 & E2 & E3). destruct ints_double as (D1 & D2).
  assert (H : curve_ok (map to_R [b64_ratio 1 1; b64_ratio 2 1]) (map to_R [b64_ratio 1 1; b64_ratio 2 1])).
  { cbn [map]. rewrite E1, E2. split; [reflexivity|]. split; [cbn; lia|]. split; [repeat constructor; lra|]. split; [repeat constructor; lra|]. split; [repeat constructor; lra|]. left. lra. }
  assert (W : Forall (double_between (1 / 10 ^ 12) (10 ^ 12)) [b64_ratio 1 1; b64_ratio 2 1]).
  { constructor; [split; [exact D1|rewrite E1; lra]|]. constructor; [split; [exact D2|rewrite E2; lra]|constructor]. }
  assert (C : (Z.of_nat (List.length [b64_ratio 1 1; b64_ratio 2 1]) <= 10000)%Z) by (cbn; lia).
  destruct (C117_mean rounded_lib _ _ H C W two_like) as (m & Em & M). destruct (C117_rayleigh rounded_lib _ _ H C W two_like) as (r & Er & Q).
  pose proof (C117_order rounded_lib _ _ m r H C W two_like Em Er) as O. exists m, r. split; [exact Em|].
  unfold mean_wavelength in M. unfold rayleigh_wavelength in Q. cbn [map curve_integral hd last] in M, Q, O. rewrite E1, E2 in M, Q, O.
  split; [replace (5 / 3) with (((2 - 1) * ((1 * 1 + 2 * 2) / 2) + 0) / ((2 - 1) * ((1 + 2) / 2) + 0)) by lra; exact M|]. split; [exact Er|].
  split; [|exact O]. replace (10 / 9) with (((2 - 1) * ((1 / 1 ^ 3 + 2 / 2 ^ 3) / 2) + 0) / ((2 - 1) * ((1 / 1 ^ 4 + 2 / 2 ^ 4) / 2) + 0)) by lra. exact Q.
Qed.
