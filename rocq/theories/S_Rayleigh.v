(** Specification vocabulary for the Rayleigh correction. *)
From Coq Require Import Reals ZArith String List Bool.
From Verif Require Import Base NumSig XR M_Nir M_Rayleigh S_Nir.
Import ListNotations.
Local Open Scope R_scope.

(** the secant of an angle in degrees, and the angle with secant [m] *)
Definition sec_deg (a : R) : R := 1 / cos (a * PI / 180).
Definition max_angle (m : R) : R := acos (1 / m) * 180 / PI.

Definition increasing (l : list R) : Prop :=
  forall i j x y, (i < j)%nat -> nth_error l i = Some x -> nth_error l j = Some y -> x < y.
(** an axis of a table: increasing nodes from [lo] to [hi] *)
Definition axis (l : list R) (lo hi : R) : Prop :=
  increasing l /\ (2 <= List.length l)%nat /\ (Z.of_nat (List.length l) <= 2 ^ 31)%Z /\
  nth_error l 0 = Some lo /\ nth_error l (List.length l - 1) = Some hi.
(** its nodes are equidistant *)
Definition equidistant (l : list R) : Prop :=
  exists lo h, forall i x, nth_error l i = Some x -> x = lo + INR i * h.

(** [lut] holds the real table with wavelengths [ws], sun secants [ss], azimuths
    [az], satellite secants [ts] and, per wavelength, the values [V] in row-major
    order.  As in the distributed tables secants start at 1 and azimuths run from
    0 to 180 degrees. *)
Record holds (lut : raylut XRN) (ws ss az ts : list R) (V : list (list R)) (smax tmax : R) : Prop := {
  h_w : rl_wavelengths lut = map Fin ws;
  h_s : rl_sunz lut = map Fin ss; h_a : rl_azid lut = map Fin az; h_t : rl_satz lut = map Fin ts;
  h_v : rl_refl lut = map (map Fin) V;
  h_wlen : List.length V = List.length ws;
  h_vlen : Forall (fun row => List.length row = (List.length ss * (List.length az * List.length ts))%nat) V;
  h_winc : increasing ws;
  h_sun : axis ss 1 smax; h_azi : axis az 0 180; h_sat : axis ts 1 tmax }.
(** the value of a row at node (i, j, k) *)
Definition at_node (az ts : list R) (row : list R) (i j k : nat) : option R :=
  nth_error row (i * (List.length az * List.length ts) + j * List.length ts + k).

(** the wavelength lies strictly between two of the table's *)
Definition inside (ws : list R) (w : R) : Prop := (exists a, In a ws /\ a < w) /\ (exists b, In b ws /\ w < b).

(** The arguments describe one image of shape [s]. *)
Definition ray_image (s : list nat) (sun sat azidiff : rarr XRN) (red : option (rarr XRN)) : Prop :=
  is_image s (r_arr sun) /\ is_image s (r_arr sat) /\ is_image s (r_arr azidiff) /\
  (forall r, red = Some r -> fits s (r_arr r)) /\
  a_dtype (r_arr (match red with None => sun | Some r => r end)) = Float64.

(** dask arrays need dask *)
Definition sane (dask : bool) (sun : rarr XRN) (red : option (rarr XRN)) : Prop :=
  dask = true \/ (r_kind sun = Numpy /\ forall r, red = Some r -> r_kind r = Numpy).

(** the weakening of the correction over bright (cloudy) pixels *)
Definition cloud_factor (red : R) : R := if Rlt_dec red 20 then 1 else 1 - (red - 20) / 80.

(** clipped to percent *)
Definition percent (x : R) : R := Rmin (Rmax x 0) 100.

(** a function that is affine in each of its three arguments *)
Definition affine (f : R -> R) : Prop := forall a b t, f (a + t * (b - a)) = (1 - t) * f a + t * f b.
Definition multi_affine (g : R -> R -> R -> R) : Prop :=
  (forall y z, affine (fun x => g x y z)) /\ (forall x z, affine (fun y => g x y z)) /\ (forall x y, affine (fun z => g x y z)).
(** [row] is that function sampled at the nodes *)
Definition sampled (g : R -> R -> R -> R) (ss az ts row : list R) : Prop :=
  forall i j k x y z, nth_error ss i = Some x -> nth_error az j = Some y -> nth_error ts k = Some z ->
  at_node az ts row i j k = Some (g x y z).
