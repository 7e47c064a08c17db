(** Property theorems C113 (atm_correction_ir.py in doubles). *)
From Coq Require Import Reals Lra Lia ZArith String List Bool SpecFloat.
From Flocq Require Import Core BinarySingleNaN.
From Verif Require Import Base NumSig B64 M_AtmIR S_B64 S_AtmIR S_AtmDoubles P_RayDoubles P_AtmDoubles.
Import ListNotations.
Local Open Scope R_scope.

(** [lib] is the platform's mathematical library; one with a correctly rounding
    pow has what is asked for: *)
Example C113_case_library : good_pow (1 / 10 ^ 15) (m_pow pow_lib).
Proof. exact pow_rounded_good. Qed.

(** Masked arrays: every unmasked pixel between 100 and 400 K with an unmasked
    angle gets the corrected temperature, right to 1e-11 K and on the right side
    of the temperature itself; none of them becomes masked.  Pixels that exact
    arithmetic keeps in order stay in order. *)
Theorem C113_masked_array : forall lib h d z l zen, good_pow (1 / 10 ^ 15) (m_pow lib) ->
  nth_error h d = Some (MaskedA l) -> nth_error h z = Some zen -> is_dask (N := B64N lib) zen = false -> List.length (zen_pixels zen) = List.length l ->
  exists out, get_correction (N := B64N lib) h z d = ((h ++ [MaskedA out])%list, Ok (MaskedA out)) /\ List.length out = List.length l /\
    (forall i t m za zm k, nth_error l i = Some (t, m) -> nth_error (zen_pixels zen) i = Some (za, zm) -> kelvin t -> in_zone64 za k ->
       exists v, nth_error out i = Some (if m || zm then (t, m) else (v, false))%bool /\ corrected64 t k v) /\
    (forall i t za k v i' t' za' k' v', nth_error l i = Some (t, false) -> nth_error (zen_pixels zen) i = Some (za, false) -> kelvin t -> in_zone64 za k -> nth_error out i = Some (v, false) ->
       nth_error l i' = Some (t', false) -> nth_error (zen_pixels zen) i' = Some (za', false) -> kelvin t' -> in_zone64 za' k' -> nth_error out i' = Some (v', false) ->
       in_order (to_R t) k (to_R t') k' -> to_R v <= to_R v').
Proof. exact masked_image64. Qed.
Print Assumptions C113_masked_array.
(** Dask arrays: the same. *)
Theorem C113_dask_array : forall lib h d z (a zen : arr (B64N lib)), good_pow (1 / 10 ^ 15) (m_pow lib) ->
  nth_error h d = Some a -> nth_error h z = Some zen -> (is_dask a || is_dask zen)%bool = true -> List.length (values zen) = List.length (values a) ->
  exists out, get_correction (N := B64N lib) h z d = ((h ++ [a])%list, Ok (DaskA out)) /\ List.length out = List.length (values a) /\
    (forall i t za k, nth_error (values a) i = Some t -> nth_error (values zen) i = Some za -> kelvin t -> in_zone64 za k -> exists v, nth_error out i = Some v /\ corrected64 t k v) /\
    (forall i t za k v i' t' za' k' v', nth_error (values a) i = Some t -> nth_error (values zen) i = Some za -> kelvin t -> in_zone64 za k -> nth_error out i = Some v ->
       nth_error (values a) i' = Some t' -> nth_error (values zen) i' = Some za' -> kelvin t' -> in_zone64 za' k' -> nth_error out i' = Some v' ->
       in_order (to_R t) k (to_R t') k' -> to_R v <= to_R v').
Proof. exact dask_image64. Qed.
Print Assumptions C113_dask_array.
(** Every double is in one zone. *)
Theorem C113_zones_cover : forall z, encodable z -> exists k, in_zone64 z k.
Proof. exact zones_cover64. Qed.
Print Assumptions C113_zones_cover.

(** 300 K at 35 and 60 degrees, 250 K and 200 K at nadir, 280 K with a NaN angle *)
Example C113_case : Forall kelvin (temps64 pow_lib) /\
  Forall2 in_zone64 (angles64 pow_lib) [Slant 35; Slant 60; Nadir; Nadir; Outside] /\
  in_order 300 (Slant 35) 300 (Slant 60) /\ in_order 200 Nadir 250 Nadir /\
  exists h out, get_correction (N := B64N pow_lib) [MaskedA (map (fun t => (t, false)) (temps64 pow_lib)); PlainA (angles64 pow_lib)] 1 0 = (h, Ok (MaskedA out)) /\ List.length out = 5%nat.
Proof.
  assert (I : forall z, (0 <= z <= 400)%Z -> is_double (b64_ratio z 1) /\ to_R (b64_ratio z 1) = IZR z) by (intros; apply int_R; lia).
  split; [|split; [|split; [|split]]].
  - assert (K : forall z, (100 <= z <= 400)%Z -> kelvin (b64_ratio z 1)). { intros z H. destruct (I z ltac:(lia)) as [D E]. split; [exact D|]. rewrite E. split; apply IZR_le; lia. }
    repeat (apply Forall_cons; [apply K; lia|]). apply Forall_nil.
  - destruct (I 35%Z ltac:(lia)) as [D1 E1]. destruct (I 60%Z ltac:(lia)) as [D2 E2]. destruct (I 0%Z ltac:(lia)) as [D3 E3].
    constructor; [cbn [in_zone64]; split; [exact D1|]; split; [exact E1|lra]|]. constructor; [cbn [in_zone64]; split; [exact D2|]; split; [exact E2|lra]|].
    constructor; [split; [exact D3|exact E3]|]. constructor; [split; [exact D3|exact E3]|]. constructor; [left; reflexivity|constructor].
  - cbn. lra.
  - cbn. lra.
  - destruct (C113_masked_array pow_lib [MaskedA (map (fun t => (t, false)) (temps64 pow_lib)); PlainA (angles64 pow_lib)] 0 1 _ _ pow_rounded_good eq_refl eq_refl eq_refl eq_refl) as (out & H & L & _).
    eexists _, out. split; [exact H|exact L].
Qed.
