(** Lemmas on the platforms of composite_rsr_plot.py, on plot_rsr.py and on
    find_wavelengths_for_satpy.py (C89, C90, C92). *)
From Coq Require Import String Ascii List Bool NArith ZArith Reals Lra Lia.
From Verif Require Import Base NumSig XR M_Tables M_Utils M_Rsr M_World M_Scripts S_Utils S_Scripts P_Central P_Utils P_Utils2 P_Width P_Scripts2.
Import ListNotations.
Local Open Scope R_scope.

Section Platforms.
  Variable make : string -> string -> res (robj XRN).

  Lemma is_ioerror_in e : In e [FileNotFoundError; OSError; HTTPError; NetworkError] -> is_ioerror e = true.
  Proof. intros [<-|[<-|[<-|[<-|[]]]]]; reflexivity. Qed.
  Lemma pick_found p sensors o : found make p sensors o -> forall v, pick make p sensors v = Ok (Obj o).
  Proof.
    induction 1 as [s rest o Hs Hm|s rest o Hs H IH|s rest o e Hs Hm He H IH]; intros v; cbn [pick]; rewrite Hs; auto.
    - now rewrite Hm.
    - rewrite Hm, (is_ioerror_in e He). apply IH.
  Qed.
  Lemma found_made p sensors o : found make p sensors o -> exists s, In s sensors /\ skipped p s = false /\ make p s = Ok o.
  Proof.
    induction 1 as [s rest o Hs Hm|s rest o Hs H (s' & A & B & C)|s rest o e Hs Hm He H (s' & A & B & C)].
    - exists s. repeat split; auto. now left.
    - exists s'. repeat split; auto. now right.
    - exists s'. repeat split; auto. now right.
  Qed.
  Lemma pick_failing p sensors : (forall s, In s sensors -> skipped p s = false ->
      exists e, make p s = Err e /\ In e [FileNotFoundError; OSError; HTTPError; NetworkError]) ->
    pick make p sensors NoObj = Ok NoObj /\
    ((exists s, In s sensors /\ skipped p s = false) -> forall v, pick make p sensors v = Ok NoObj).
  Proof.
    induction sensors as [|s rest IH]; intros H; cbn [pick].
    - split; [reflexivity|]. intros (s & [] & _).
    - destruct IH as [A B]; [intros; apply H; auto; now right|]. destruct (skipped p s) eqn:Es.
      + split; [exact A|]. intros (s' & [<-|Hs'] & E); [congruence|eauto].
      + destruct (H s (or_introl eq_refl) Es) as (e & -> & He). rewrite (is_ioerror_in e He). split; auto.
  Qed.
  Lemma pick_unreadable p sensors v : unreadable make p sensors -> pick make p sensors v = Ok NoObj.
  Proof. intros (A & B). now apply pick_failing. Qed.
  Lemma pick_untried p sensors v : untried p sensors -> pick make p sensors v = Ok v.
  Proof.
    induction sensors as [|s rest IH]; intros H; cbn [pick]; [reflexivity|]. rewrite (H s) by now left. apply IH.
    intros s' Hs'. apply H. now right.
  Qed.

  Lemma all_platforms_spec fuel a range ps oss : Forall2 (shows make (ca_sensors a)) ps oss ->
    forall css, Forall2 (fun o cs => curves_of fuel a range o = Done cs) (concat oss) css ->
    forall v acc something, all_platforms make fuel a range ps v acc something =
      Done ((acc ++ concat css)%list, something || match concat oss with [] => false | _ => true end)%bool.
  Proof.
    induction 1 as [|p os ps oss Hp H IH]; intros css Hc v acc something; cbn [all_platforms concat].
    - inversion Hc; subst. cbn. now rewrite app_nil_r, orb_false_r.
    - cbn [concat] in Hc. destruct Hp as [(o & -> & Ho)|(-> & Ho)].
      + rewrite (pick_found p _ o Ho v). inversion Hc as [|? cs ? css' Hcs Hc']; subst. rewrite Hcs. rewrite (IH _ Hc').
        cbn [concat app]. rewrite <- app_assoc. cbn. now rewrite orb_true_r.
      + rewrite (pick_unreadable p _ v Ho). now apply IH.
  Qed.
  Lemma composite_start fuel a range : range_of a range ->
    composite make fuel a = match all_platforms make fuel a range (ca_platforms a) Unbound [] false with
        | Stop s => Stop s | Done (_, false) => Done None
        | Done (cs, true) => of_res (f <- plot_filename a range ;; Ok (Some (cs, f))) end.
  Proof. unfold range_of, composite. destruct (ca_range a) as [[|lo [|hi [|]]]|]; try contradiction; intros ->; reflexivity. Qed.
  Lemma composite_platforms : forall fuel a range oss css f, range_of a range ->
    Forall2 (shows make (ca_sensors a)) (ca_platforms a) oss ->
    Forall2 (fun o cs => curves_of fuel a range o = Done cs) (concat oss) css -> concat oss <> [] -> plot_filename a range = Ok f ->
    composite make fuel a = Done (Some (concat css, f)).
  Proof.
    intros fuel a range oss css f Hr Ho Hc Hne Hf. rewrite (composite_start fuel a range Hr), (all_platforms_spec fuel a range _ _ Ho _ Hc).
    destruct (concat oss); [contradiction|]. cbn [orb app]. rewrite Hf. reflexivity.
  Qed.
  Lemma composite_nothing : forall fuel a range, range_of a range -> (forall p, In p (ca_platforms a) -> unreadable make p (ca_sensors a)) ->
    composite make fuel a = Done None.
  Proof.
    intros fuel a range Hr H. rewrite (composite_start fuel a range Hr).
    rewrite (all_platforms_spec fuel a range (ca_platforms a) (map (fun _ => []) (ca_platforms a))) with (css := []).
    - replace (concat (map (fun _ => []) (ca_platforms a))) with (@nil (robj XRN)); [reflexivity|]. clear.
      induction (ca_platforms a); [reflexivity|exact IHl].
    - clear Hr. induction (ca_platforms a) as [|p ps IH]; constructor; [right; split; [reflexivity|apply H; now left]|].
      apply IH. intros; apply H; now right.
    - replace (concat (map (fun _ => []) (ca_platforms a))) with (@nil (robj XRN)); [constructor|]. clear.
      induction (ca_platforms a); [reflexivity|exact IHl].
  Qed.
  Lemma composite_labels : forall fuel a oss b, ca_range a = None -> ca_bandname a = Some b -> b <> ""%string -> ca_no_name a = false ->
    (exists m, ca_minimum a = Fin m) ->
    (forall p s o, make p s = Ok o -> so_platform o = p /\ drawable o b) ->
    Forall2 (shows make (ca_sensors a)) (ca_platforms a) oss -> concat oss <> [] ->
    exists cs f, composite make fuel a = Done (Some (cs, f)) /\
      map pl_label cs = map (fun o => so_platform o ++ " - " ++ b)%string (concat oss) /\
      map (map so_platform) oss = map (fun pos => match snd pos with [] => [] | _ => [fst pos] end) (combine (ca_platforms a) oss).
  Proof.
    intros fuel a oss b Hr Hb Hbn Hn (m & Hm) Hmk Ho Hne.
    assert (Fo : forall p os, shows make (ca_sensors a) p os -> Forall (fun o => so_platform o = p /\ drawable o b) os).
    { intros p os [(o & -> & H)|(-> & _)]; [|constructor]. constructor; [|constructor].
      destruct (found_made p _ o H) as (s & _ & _ & E). eauto. }
    assert (Hd : Forall (fun o => drawable o b) (concat oss)).
    { clear - Ho Fo. induction Ho as [|p os ps oss Hp H IH]; [constructor|]. cbn [concat]. apply Forall_app. split; [|exact IH].
      eapply Forall_impl; [|exact (Fo p os Hp)]. intros o [_ X]; exact X. }
    assert (C : exists css, Forall2 (fun o cs => curves_of fuel a None o = Done cs) (concat oss) css /\
       map pl_label (concat css) = map (fun o => so_platform o ++ " - " ++ b)%string (concat oss)).
    { clear - Hd Hb Hbn Hn Hm. induction (concat oss) as [|o os IH]; [exists []; split; [constructor|reflexivity]|].
      inversion Hd; subst. destruct IH as (css & A & B); [assumption|].
      destruct (plot_band_spec o m true b) as (c & E & bd & d & ws & rs & pts & _ & _ & _ & L & _); [assumption|].
      exists ([c] :: css). split.
      - constructor; [|exact A]. unfold curves_of. rewrite Hb, Hn, Hm. destruct b as [|ch b]; [congruence|]. cbn [text_given negb].
        rewrite E. reflexivity.
      - cbn [concat app map]. rewrite B, L. reflexivity. }
    destruct C as (css & Hc & Hl).
    assert (Hf : exists f, plot_filename a None = Ok f).
    { unfold plot_filename. destruct (text_given (ca_filename a)); [eauto|]. rewrite Hb. destruct b as [|ch b]; [congruence|]. cbn. eauto. }
    destruct Hf as (f & Hf). exists (concat css), f. split.
    { apply composite_platforms with (range := None) (oss := oss); auto. unfold range_of. now rewrite Hr. }
    split; [exact Hl|]. clear - Ho Fo. induction Ho as [|p os ps oss Hp H IH]; [reflexivity|]. cbn [map combine fst snd]. f_equal; [|exact IH].
    pose proof (Fo p os Hp) as F. destruct Hp as [(o & -> & _)|(-> & _)]; [|reflexivity]. inversion F; subst. cbn [map]. f_equal. tauto.
  Qed.
  Lemma first_untried : forall fuel a range p ps, range_of a range -> ca_platforms a = p :: ps -> untried p (ca_sensors a) ->
    composite make fuel a = Stop NameError.
  Proof.
    intros fuel a range p ps Hr Hp Hu. rewrite (composite_start fuel a range Hr), Hp. cbn [all_platforms]. now rewrite (pick_untried p _ _ Hu).
  Qed.
  Lemma later_untried : forall fuel a range p q o cs f, range_of a range -> ca_platforms a = [p; q] -> found make p (ca_sensors a) o ->
    untried q (ca_sensors a) -> curves_of fuel a range o = Done cs -> plot_filename a range = Ok f ->
    composite make fuel a = Done (Some ((cs ++ cs)%list, f)).
  Proof.
    intros fuel a range p q o cs f Hr Hp Ho Hu Hc Hf. rewrite (composite_start fuel a range Hr), Hp. cbn [all_platforms].
    rewrite (pick_found p _ o Ho), Hc, (pick_untried q _ _ Hu), Hc. cbn [app]. now rewrite Hf.
  Qed.
End Platforms.
Lemma substring_refl s : substring_of s s = true.
Proof. destruct s as [|c s]; [reflexivity|]. cbn [substring_of]. rewrite (proj2 (prefix_correct (String c s) (String c s))); [reflexivity|].
  clear. generalize (String c s). induction s0 as [|c0 t IH]; [reflexivity|]. cbn. now rewrite IH. Qed.
Lemma on_board_tried : forall p s, on_board p s -> skipped p s = false.
Proof.
  intros p s. unfold on_board, skipped. destruct (dget p INSTRUMENTS) as [[i|l]|]; [intros ->; now rewrite substring_refl| |reflexivity].
  intros H. apply existsb_str_in in H. now rewrite H.
Qed.


(** ** find_wavelengths_for_satpy.py *)
Lemma exists_where (t : R) rs : Exists (fun r => t < r) rs -> exists i j, first_last (fun r => t < r) rs i j.
Proof.
  intros H. destruct (where_ (N := XRN) (fun r => nltb XRN (Fin t) r) (map Fin rs)) as [|i0 rest] eqn:E.
  - exfalso. apply Exists_exists in H as (r & Hin & Hr). apply In_nth_error in Hin as (k & Hk).
    assert (In k (where_ (N := XRN) (fun r => nltb XRN (Fin t) r) (map Fin rs))).
    { apply where_in. exists (Fin r). split; [now apply map_nth_error|]. cbn. unfold Rltb. destruct (Rlt_dec t r); [reflexivity|contradiction]. }
    rewrite E in H. destruct H.
  - pose proof (where_first_last (N := XRN) _ _ _ _ E) as (A & (x & Bx & Px) & (y & By & Py) & C). exists i0, (last rest i0).
    assert (D : forall k v, nth_error (map Fin rs) k = Some v -> exists r, nth_error rs k = Some r /\ v = Fin r).
    { intros k v Hv. rewrite nth_error_map in Hv. destruct (nth_error rs k) as [r|]; [|discriminate]. injection Hv as <-. eauto. }
    assert (P : forall r, nltb XRN (Fin t) (Fin r) = true <-> t < r). { intros r. cbn. unfold Rltb. destruct (Rlt_dec t r); intuition congruence. }
    destruct (D _ _ Bx) as (rx & Ex & ->). destruct (D _ _ By) as (ry & Ey & ->). repeat split; [exact A| | | |].
    + exists rx. split; [exact Ex|]. now apply P.
    + exists ry. split; [exact Ey|]. now apply P.
    + destruct (C k (Fin x)); [now apply map_nth_error|now apply P|assumption].
    + destruct (C k (Fin x)); [now apply map_nth_error|now apply P|assumption].
Qed.
Lemma same_index (rs ws : list R) : List.length rs = List.length ws -> forall i r, nth_error rs i = Some r -> exists w, nth_error ws i = Some w.
Proof.
  intros Hl i r H. destruct (nth_error ws i) as [w|] eqn:E; [eauto|]. apply nth_error_None in E.
  assert (i < List.length rs)%nat; [|lia]. apply nth_error_Some. congruence.
Qed.
Section Find.
  Variables (o : robj XRN) (det : string) (t : R).
  Lemma line_spec b : has_range o det t b -> exists l, good_line o det t b (b, l) /\
    (bd <- so_band o b ;; d <- of_option KeyError (dget det bd) ;; get_wave_range d (Fin t)) = Ok l.
  Proof.
    intros (bd & d & ws & rs & Hb & Hd & (Hl & Hw & Hr) & He). destruct (exists_where t rs He) as (i & j & F).
    assert (Hi : exists wi, nth_error ws i = Some wi). { destruct F as (_ & (x & Hx & _) & _). apply (same_index rs ws Hl _ x Hx). }
    assert (Hj : exists wj, nth_error ws j = Some wj). { destruct F as (_ & _ & (x & Hx & _) & _). apply (same_index rs ws Hl _ x Hx). }
    destruct Hi as (wi & Hi), Hj as (wj & Hj).
    eexists. split.
    - exists bd, d, ws, rs, i, j, wi, wj. split; [exact Hb|]. split; [exact Hd|]. split; [repeat split; auto|].
      split; [exact F|]. split; [exact Hi|]. split; [exact Hj|reflexivity].
    - rewrite (so_band_present o b bd Hb). cbn [bind]. rewrite Hd. cbn [of_option bind].
      apply (proj1 (wave_range_spec d ws rs t Hl Hw Hr) i j wi wj F Hi Hj).
  Qed.
  Lemma lines_spec bands : (forall b, In b bands -> has_range o det t b) -> forall rest,
    exists ls, Forall2 (good_line o det t) bands ls /\
      print_ranges o det (Fin t) (bands ++ rest) =
        (let (l, r) := print_ranges o det (Fin t) rest in ((ls ++ l)%list, r)).
  Proof.
    induction bands as [|b bands IH]; intros H rest; cbn [app print_ranges].
    - exists []. split; [constructor|]. destruct (print_ranges _ _ _ rest). reflexivity.
    - destruct (line_spec b (H b (or_introl eq_refl))) as (l & Hl & E). rewrite E.
      destruct (IH (fun b' Hb' => H b' (or_intror Hb')) rest) as (ls & F & ->). exists ((b, l) :: ls). split; [now constructor|].
      destruct (print_ranges _ _ _ rest). reflexivity.
  Qed.
  Lemma lines_stop bands : (forall b, In b bands -> has_range o det t b) -> forall b rest e,
    (bd <- so_band o b ;; d <- of_option KeyError (dget det bd) ;; get_wave_range d (Fin t)) = Err e ->
    exists ls, Forall2 (good_line o det t) bands ls /\ print_ranges o det (Fin t) (bands ++ b :: rest) = (ls, Err e).
  Proof.
    intros H b rest e E. destruct (lines_spec bands H (b :: rest)) as (ls & F & ->). exists ls. split; [exact F|].
    cbn [print_ranges]. rewrite E. now rewrite app_nil_r.
  Qed.
End Find.
Lemma find_all : forall make p s o b det t bands, make p s = Ok o ->
  (match b with Some b => bands = [b] /\ b <> ""%string | None => bands = so_bands o end) ->
  (forall b, In b bands -> has_range o det t b) ->
  exists ls, Forall2 (good_line o det t) bands ls /\ find_wavelengths make p s (Fin t) b det = (ls, Ok tt).
Proof.
  intros make p s o b det t bands Hm Hb H. destruct (lines_spec o det t bands H []) as (ls & F & E). rewrite app_nil_r in E.
  exists ls. split; [exact F|]. unfold find_wavelengths. rewrite Hm. cbn [print_ranges] in E. rewrite app_nil_r in E. rewrite <- E.
  destruct b as [[|c b]|]; [destruct Hb; congruence|destruct Hb as [-> _]; reflexivity|now subst].
Qed.
Lemma find_stops : forall make p s o det t pre b post, make p s = Ok o -> so_bands o = (pre ++ b :: post)%list ->
  (forall b, In b pre -> has_range o det t b) ->
  exists ls, Forall2 (good_line o det t) pre ls /\
    (forall bd, dget b (so_rsr o) = Some bd -> dget det bd = None ->
       find_wavelengths make p s (Fin t) None det = (ls, Err KeyError)) /\
    (forall bd d ws rs, dget b (so_rsr o) = Some bd -> dget det bd = Some d -> arrays d ws rs -> Forall (fun r => r <= t) rs ->
       find_wavelengths make p s (Fin t) None det = (ls, Err IndexError)).
Proof.
  intros make p s o det t pre b post Hm Hs H. destruct (lines_spec o det t pre H (b :: post)) as (ls & F & E).
  exists ls. split; [exact F|]. unfold find_wavelengths. rewrite Hm, Hs, E. cbn [print_ranges]. split.
  - intros bd Hb Hd. rewrite (so_band_present o b bd Hb). cbn [bind]. rewrite Hd. cbn [of_option bind]. now rewrite app_nil_r.
  - intros bd d ws rs Hb Hd (Hl & Hw & Hr) Hall. rewrite (so_band_present o b bd Hb). cbn [bind]. rewrite Hd. cbn [of_option bind].
    rewrite (proj2 (wave_range_spec d ws rs t Hl Hw Hr) Hall). now rewrite app_nil_r.
Qed.

(** ** plot_rsr.py *)
Lemma plot_detectors (bd : band XRN) minimum : forall dss, Forall2 (fun kd ds => arrays (snd kd) (fst ds) (snd ds)) bd dss ->
  mapM (fun kd : string * detector XRN => unmasked (N := XRN) (Fin minimum) (snd kd)) bd =
  Ok (map (fun ds => map (fun p => (Fin (fst p), Fin (snd p))) (filter (fun p => Rltb minimum (snd p)) (combine (fst ds) (snd ds)))) dss).
Proof.
  induction 1 as [|kd ds bd dss H F IH]; [reflexivity|]. cbn [mapM map]. rewrite (unmasked_spec minimum _ _ _ H). cbn [bind].
  rewrite IH. reflexivity.
Qed.
Lemma plot_rsr_spec : forall make p s o minimum b w bd dss, make p s = Ok o -> b <> ""%string -> dget b (so_rsr o) = Some bd ->
  Forall2 (fun kd ds => arrays (snd kd) (fst ds) (snd ds)) bd dss ->
  let drawn := Ok (map (fun ds => map (fun p => (Fin (fst p), Fin (snd p))) (filter (fun p => Rltb minimum (snd p)) (combine (fst ds) (snd ds)))) dss,
                   (p ++ "_" ++ s ++ "_rsr_band" ++ b ++ ".png")%string) in
  plot_rsr make p s (Fin minimum : XRN) (Some b) w = drawn /\
  (forall x, NoDup (dkeys (so_rsr o)) -> Forall (fun kb => first_cw (snd kb) <> None) (so_rsr o) ->
     translate_band (so_instrument o) b = b -> filter (near x (1 / 10)) (so_rsr o) = [(b, bd)] ->
     plot_rsr make p s (Fin minimum) None (Fin x) = drawn).
Proof.
  intros make p s o minimum b w bd dss Hm Hne Hb F drawn.
  assert (E : forall k : string, (bd <- so_band o b ;; cs <- mapM (fun kd : string * detector XRN => unmasked (N := XRN) (Fin minimum) (snd kd)) bd ;; Ok (cs, k)) =
     Ok (map (fun ds => map (fun p => (Fin (fst p), Fin (snd p))) (filter (fun p => Rltb minimum (snd p)) (combine (fst ds) (snd ds)))) dss, k)).
  { intros k. rewrite (so_band_present o b bd Hb). cbn [bind]. rewrite (plot_detectors bd minimum dss F). reflexivity. }
  unfold plot_rsr. rewrite Hm. cbn [bind]. split.
  - destruct b as [|c b]; [congruence|]. cbn [bind]. apply E.
  - intros x nd cws Ht Hx. change (nlit XRN 1 10) with (Fin (1 / 10) : num XRN).
    rewrite (bandname_spec (so_instrument o) x (1 / 10) false (so_rsr o) nd cws), Hx. cbn [map fst]. rewrite Ht. cbn [bind]. apply E.
Qed.
Lemma plot_rsr_fails : forall make p s o minimum x, make p s = Ok o ->
  NoDup (dkeys (so_rsr o)) -> Forall (fun kb => first_cw (snd kb) <> None) (so_rsr o) ->
  (filter (near x (1 / 10)) (so_rsr o) = [] -> plot_rsr make p s (minimum : XRN) None (Fin x) = Err KeyError) /\
  ((2 <= List.length (filter (near x (1 / 10)) (so_rsr o)))%nat -> plot_rsr make p s minimum None (Fin x) = Err AttributeError).
Proof.
  intros make p s o minimum x Hm nd cws. unfold plot_rsr. rewrite Hm. cbn [bind].
  change (nlit XRN 1 10) with (Fin (1 / 10) : num XRN). rewrite (bandname_spec (so_instrument o) x (1 / 10) false (so_rsr o) nd cws).
  destruct (filter (near x (1 / 10)) (so_rsr o)) as [|? [|? ?]]; cbn; split; intros H; try reflexivity; try discriminate H; lia.
Qed.
