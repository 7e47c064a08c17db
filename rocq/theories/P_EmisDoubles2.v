(** The call of the Examples of C115: that of C109, with the bounds the balance asks for. *)
From Coq Require Import Reals Lra ZArith String List Bool Lia SpecFloat.
From Flocq Require Import Core BinarySingleNaN.
From Verif Require Import Base NumSig B64 M_Tables M_Utils M_Blackbody M_RadTb M_Nir M_Rsr S_B64 S_RadTb S_Nir S_NirDoubles P_B64 P_B64ops P_B642 P_B64lib P_B64planck P_B64band
     P_Arr P_Nir P_NirDoubles P_NirDoubles2 P_NirDoubles3.
Import ListNotations.
Local Open Scope R_scope.

Lemma case_balance64 : exists c t, sensor rounded_lib c /\ make_tb2rad_lut c true = Ok t /\
  forall st, exists st' r L T S v,
  reflectance_from_tbs (E64 _) (calc64 _ c t) (sun64 _) (tb64 _) (therm64 _) None None st = (st', Ok r) /\
  attributes st' 0 L T (b64_ratio 1 1) S /\ ordinary (cv_rsr_integral c) L T (b64_ratio 1 1) S /\
  to_R T <= to_R L /\ to_R L * to_R (cv_rsr_integral c) <= to_R S /\ pix 0 r = Some v /\ v <> S754_nan.
Proof.
  destruct case_call64 as (c & t & Hs & Ht & C). exists c, t. split; [exact Hs|]. split; [exact Ht|]. intros st.
  destruct (C st) as (st' & r & L & L1 & T & S & v & v1 & H & A & _ & O & _ & P0 & N0 & _). clear C.
  exists st', r, L, T, S, v. split; [exact H|]. split; [exact A|]. split; [exact O|].
  destruct (image64_ok rounded_lib) as [Him Hf]. destruct (sensor_conditions c Hs) as (W & SW & RW & HI).
  destruct (sensor_facts _ c Hs) as (_ & HI' & _).
  destruct (ints_between 300 ltac:(lia)) as [B0 V0]. destruct (ints_between 280 ltac:(lia)) as [B1 V1].
  destruct (lookup_monotone rounded_lib (fun _ => 0%Z) (load64 rounded_lib) "NOAA-19"%string "avhrr-3"%string (BStr "b"%string) "det-1"%string WAVE_LENGTH c true true t (b64_ratio 280 1) (b64_ratio 300 1)
    exp_rounded_monotone exp_rounded_accurate13 Hs Ht W SW RW) as (y & y' & Y & Y' & LY); eauto.
  { destruct HI as [D HI]. split; [exact D|]. lra. }
  { apply leb64; [apply B1|apply B0|]. rewrite V0, V1. lra. }
  destruct (sensor_lookup rounded_lib (fun _ => 0%Z) c t (b64_ratio 300 1) exp_rounded_accurate Hs Ht) as (L' & QL & DL).
  destruct (sensor_lookup rounded_lib (fun _ => 0%Z) c t (b64_ratio 280 1) exp_rounded_accurate Hs Ht) as (T' & QT & DT).
  assert (L' = y') as -> by (rewrite QL in Y'; apply Ok_inj in Y'; congruence).
  assert (T' = y) as -> by (rewrite QT in Y; apply Ok_inj in Y; congruence).
  destruct (reflectance_pixels _ _ _ _ _ _ _ _ _ _ _ H Him) as (rad11' & rad3x & solar & corr & E11 & E33 & -> & _ & _ & _ & _ & P).
  destruct (P 0%nat ltac:(cbn; lia)) as (z' & tn' & L2 & T2 & F' & Qz & Qn & QL' & QT' & QF & QS & QC & _).
  destruct Him as (In & It & _).
  pose proof (radiance_of_pixel _ _ _ _ _ _ _ 0%nat _ _ In eq_refl ltac:(cbn; lia) eq_refl E33 QL) as K1.
  pose proof (radiance_of_pixel _ _ _ _ _ _ _ 0%nat _ _ It eq_refl ltac:(cbn; lia) eq_refl E11 QT) as K2.
  destruct A as ((a & Ea & Pa) & (b & Eb & Pb) & _ & (d & Ed & Pd)). cbn [ns_rad3x ns_rad3x_t11 ns_solar] in *.
  injection Ea as <-. injection Eb as <-. injection Ed as <-.
  assert (y' = L) as -> by congruence. assert (y = T) as -> by congruence.
  assert (Qz' : pix 0 (get_as_array (sun64 rounded_lib)) = Some (b64_ratio 60 1)) by reflexivity.
  assert (z' = b64_ratio 60 1) as -> by congruence. clear Qz Qz'. cbn [a_dtype get_as_array tb64 image64 cast] in QS.
  assert (ES : S = solar_raw (calc64 rounded_lib c t) (b64_ratio 60 1)) by (rewrite QS in Pd; congruence). clear QS Pd.
  assert (DS : double_between (26 * 10 ^ 4) (10 ^ 6) (solar_raw (calc64 rounded_lib c t) (b64_ratio 60 1))) by (clear; apply (chk_between 18 19); [vm_compute; reflexivity|cbn; lra|cbn; lra]). rewrite <- ES in DS.
  assert (DI : double_between 0 (191 / 10 ^ 8) (cv_rsr_integral c)) by (apply (chk_between (-20) (-19)); [exact HI'|cbn; lra|cbn; lra]).
  split; [apply leb64 in LY; [exact LY|apply DT|apply DL]|].
  split; [|split; [exact P0|exact N0]].
  destruct DS as [_ DS], DL as [_ DL], DI as [_ DI].
  assert (to_R L * to_R (cv_rsr_integral c) <= 101 * 10 ^ 9 * (191 / 10 ^ 8)) by (apply Rmult_le_compat; lra). lra.
Qed.
