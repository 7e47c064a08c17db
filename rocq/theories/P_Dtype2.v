(** Values of the typed formulas (C98). *)
From Coq Require Import ZArith List Bool.
From Verif Require Import Base NumSig M_Utils M_RadTb M_Dtype S_Dtype P_Dtype.
From Verif Require M_Nir M_AtmIR.
Import ListNotations.

Lemma nth_of {A} (l : list A) i x : M_Utils.idx l i = Ok x -> In x l.
Proof. unfold M_Utils.idx. destruct (nth_error l i) eqn:E; [|discriminate]. intros H. injection H as <-. eapply nth_error_In; exact E. Qed.
Lemma lut_value : forall (N : Num) (np : numpy N) oob scale lut one (t v : tv N) d, floats d t -> lut_radiance_t np oob scale lut one t = Ok v ->
  exists r, In r (lut_radiance lut) /\ val v = match d with Float32 => f32 np r | _ => r end.
Proof.
  intros N np oob scale lut one [tt t] v d [E D]. cbn in E. subst tt. unfold lut_radiance_t; cbn [ty]. intros H.
  destruct (lut_start lut scale) as [s|]; [|discriminate]. cbn -[Z.of_nat] in H.
  match type of H with context[if ?b then _ else _] => destruct b end; [discriminate|].
  match type of H with context[if ?b then _ else _] => destruct b end; [discriminate|].
  match type of H with context[bind ?e _] => destruct e as [r|] eqn:I end; [|discriminate]. cbn in H.
  injection H as <-. exists r. split; [eapply nth_of; exact I|]. destruct d; try discriminate; reflexivity.
Qed.
Lemma emissive_double : forall (N : Num) (np : numpy N) (c : M_Nir.calculator N) central s (rad11 rad3x r3x : N),
  let one x := {| M_Nir.a_dtype := M_Nir.Float64; M_Nir.a_shape := [1%nat]; M_Nir.a_data := [x] |} in
  let dbl x := {| ty := Np Float64; val := x |} in
  M_Nir.ns_rad3x_t11 s = Some (one rad11) -> M_Nir.ns_rad3x s = Some (one rad3x) -> M_Nir.ns_r3x s = Some (one r3x) ->
  snd (M_Nir.emissive_part_3x c false s) = (v <- emissive_t np central (dbl rad11) (dbl rad3x) (dbl r3x) false ;; Ok (Some [val v])).
Proof.
  intros N np c central s rad11 rad3x r3x one dbl A B C. unfold M_Nir.emissive_part_3x, emissive_t. rewrite A, C, B. reflexivity.
Qed.
Lemma masked_double : forall (N : Num) (np : numpy N) (t z : N),
  let dbl x := {| ty := Np Float64; val := x |} in
  let p := M_AtmIR.step2 (M_AtmIR.step1 (t, false) (z, false)) (z, false) in
  snd p = false -> masked_pixel_t np (dbl t) (dbl z) = Ok (dbl (fst p)).
Proof.
  intros N np t z dbl p. 
  assert (M : masked_pixel_t np (dbl t) (dbl z) = Ok (dbl (let t1 := if neqb N z n0 then nadd N t (M_AtmIR.tau0 t) else t in
    if nltb N n0 z && nltb N z (nlit N 90 1) then nadd N t1 (nmul N (M_AtmIR.tau t1) (M_AtmIR.delta z)) else t1))).
  { unfold masked_pixel_t, dbl. cbn [val ty]. cbn. destruct (neqb N z n0); cbn; destruct (nltb N n0 z && nltb N z (nlit N 90 1)); reflexivity. }
  rewrite M. clear M. unfold p, M_AtmIR.step1, M_AtmIR.step2, M_AtmIR.at_nadir, M_AtmIR.off_nadir, M_AtmIR.masked_iadd. cbn [fst snd negb andb]. fold (@nZ N 90). change (nZ 90) with (nlit N 90 1).
  destruct (neqb N z n0); cbn [fst snd negb andb].
  - destruct (nisnan N _ || nisinf N _); cbn [fst snd negb andb]; rewrite ?andb_false_r; [discriminate|]. rewrite andb_true_r.
    destruct (nltb N n0 z && nltb N z (nlit N 90 1)); [|reflexivity]. destruct (nisnan N _ || nisinf N _); [discriminate|reflexivity].
  - rewrite andb_true_r. destruct (nltb N n0 z && nltb N z (nlit N 90 1)); [|reflexivity]. destruct (nisnan N _ || nisinf N _); [discriminate|reflexivity].
Qed.
