(** Construction of a calculator: the name of the cached table, its reuse, bands. *)
From Coq Require Import Reals Lra ZArith String Ascii List Bool Arith Lia.
From Verif Require Import Base NumSig XR M_Tables M_Utils M_Rsr M_Blackbody M_RadTb M_World M_Config M_Download M_Nir S_Nir S_Nir2
     S_RadTb S_Rsr S_Convert S_Download P_Arr P_Rsr P_Utils P_RadTb P_RadTb2 P_Config P_Strings P_Events.
Import ListNotations.
Local Open Scope string_scope.

(** ** Strings *)
Lemma slen_app a b : String.length (a ++ b) = (String.length a + String.length b)%nat.
Proof. induction a; cbn; auto. Qed.
Lemma substring_all s : forall n, n = String.length s -> substring 0 n s = s.
Proof. induction s as [|c s IH]; intros n ->; cbn; [reflexivity|]. now rewrite IH. Qed.
Lemma substring_app a b n : n = String.length b -> substring (String.length a) n (a ++ b) = b.
Proof. intros ->. induction a; cbn; [now apply substring_all|auto]. Qed.
Lemma substring_end s : forall k, (k <= String.length s)%nat -> exists p, s = p ++ substring (String.length s - k) k s.
Proof.
  induction s as [|c s IH]; intros k Hk; cbn [String.length] in *.
  - assert (k = 0)%nat by lia. subst. now exists "".
  - destruct (Nat.eq_dec k (S (String.length s))) as [->|Hn].
    + exists "". cbn [append]. rewrite Nat.sub_diag. now rewrite substring_all.
    + destruct (IH k ltac:(lia)) as [p Hp]. exists (String c p).
      replace (S (String.length s) - k)%nat with (S (String.length s - k)) by lia.
      cbn [append substring]. f_equal. exact Hp.
Qed.
Lemma endswith_iff s suf : endswith s suf = true <-> ends s suf.
Proof.
  unfold endswith, ends. rewrite andb_true_iff, Nat.leb_le, String.eqb_eq. split.
  - intros [H1 H2]. destruct (substring_end s _ H1) as [p Hp]. exists p. now rewrite H2 in Hp.
  - intros [p ->]. rewrite slen_app. split; [lia|].
    replace (String.length p + String.length suf - String.length suf)%nat with (String.length p) by lia.
    now apply substring_app.
Qed.
Lemma endswith_not s suf : endswith s suf = false <-> ~ ends s suf.
Proof. rewrite <- endswith_iff. destruct (endswith s suf); intuition congruence. Qed.

Lemma no_slash_cons c b : c <> "/"%char -> no_slash b -> no_slash (String c b).
Proof.
  intros Hc Hb x y H. destruct x as [|d x]; cbn in H; injection H as H1 H2; [congruence|].
  apply (Hb x y). exact H2.
Qed.
Lemma no_slash_nil : no_slash "".
Proof. intros [|] b; discriminate. Qed.

Lemma split_slash_spec p : let (h, b) := split_slash p in p = h ++ b /\ no_slash b /\ (h = "" \/ ends h "/").
Proof.
  induction p as [|c t IH]; cbn [split_slash]; [split; [reflexivity|]; split; [apply no_slash_nil|auto]|].
  destruct (split_slash t) as [h b]. destruct IH as (-> & Hb & Hh).
  destruct (Ascii.eqb_spec c "/") as [->|Hc].
  - split; [reflexivity|]. split; [exact Hb|]. right. destruct Hh as [->|[q ->]]; [now exists ""|now exists (String "/" q)].
  - destruct (String.eqb_spec h "") as [->|Hn].
    + split; [reflexivity|]. split; [now apply no_slash_cons|auto].
    + split; [reflexivity|]. split; [exact Hb|]. right. destruct Hh as [->|[q ->]]; [congruence|]. now exists (String c q).
Qed.

Lemma all_slash_spec h : all_slash h = true -> exists n, h = slashes n.
Proof.
  induction h as [|c h IH]; [now exists O|]. cbn. rewrite andb_true_iff. unfold is_slash. rewrite Ascii.eqb_eq.
  intros [-> H]. destruct (IH H) as [n ->]. now exists (S n).
Qed.
Lemma all_slash_slashes n : all_slash (slashes n) = true.
Proof. induction n; cbn; auto. Qed.

Lemma rstrip_slash_spec h : all_slash h = false -> exists n, h = rstrip_slash h ++ slashes n /\ rstrip_slash h <> "" /\ ~ ends (rstrip_slash h) "/".
Proof.
  induction h as [|c h IH]; [discriminate|]. cbn [all_slash rstrip_slash]. intros H. rewrite H.
  destruct (all_slash h) eqn:E.
  - destruct (all_slash_spec _ E) as [n ->]. exists n.
    assert (rstrip_slash (slashes n) = "") as ->.
    { destruct n; [reflexivity|]. cbn [slashes append rstrip_slash]. now rewrite (all_slash_slashes n). }
    split; [reflexivity|]. split; [discriminate|]. rewrite andb_true_r in H. intros [q Hq].
    destruct q as [|x [|y q]]; cbn in Hq; try discriminate. injection Hq as ->. discriminate H.
  - destruct (IH eq_refl) as (n & E1 & E2 & E3). exists n. split; [cbn; now rewrite <- E1|]. split; [discriminate|].
    intros [q Hq]. destruct q as [|x q]; cbn in Hq; injection Hq as -> Hq; [auto|]. apply E3. now exists q.
Qed.
Lemma ends_slashes n : (exists q, slashes n = q ++ "/") -> n <> O.
Proof. intros [q H] ->. destruct q; discriminate. Qed.

Lemma path_parts_ok p : path_parts p (dirname p) (basename p).
Proof.
  unfold path_parts, dirname, basename. pose proof (split_slash_spec p) as H. destruct (split_slash p) as [h b]. cbn [fst snd].
  destruct H as (-> & Hb & Hh). split; [exact Hb|].
  destruct (all_slash h) eqn:E.
  - destruct (all_slash_spec _ E) as [[|n] ->]; [left; auto|]. right. left. now exists n.
  - right. right. destruct (rstrip_slash_spec _ E) as (n & E1 & E2 & E3).
    assert (n <> O).
    { intros ->. cbn in E1. rewrite sapp_nil in E1. rewrite <- E1 in E2, E3. destruct Hh; [congruence|contradiction]. }
    destruct n as [|n]; [congruence|]. exists n. split; [|split; assumption].
    rewrite E1 at 1. now rewrite sapp_assoc.
Qed.

Lemma os_join_located d name : name <> "" -> (forall t, name <> String "/" t) -> located d name (os_join d name).
Proof.
  intros Hn Hs. unfold os_join. destruct name as [|c t]; [congruence|]. unfold is_slash.
  destruct (Ascii.eqb_spec c "/") as [->|Hc]; [exfalso; now apply (Hs t)|].
  destruct (String.eqb_spec d "") as [->|Hd]; [left; auto|].
  destruct (endswith d "/") eqn:E.
  - right. left. split; [now apply endswith_iff|reflexivity].
  - right. right. split; [exact Hd|]. split; [now apply endswith_not|reflexivity].
Qed.

Lemma base_npz full : ends full ".npz" -> basename full <> "" /\ forall t, basename full <> String "/" t.
Proof.
  intros [p ->]. unfold basename. pose proof (split_slash_spec (p ++ ".npz")) as H. destruct (split_slash _) as [h b]. cbn [snd].
  destruct H as (E & Hb & Hh). split.
  - intros ->. rewrite sapp_nil in E. destruct Hh as [->|[q ->]]; [destruct p; discriminate|].
    assert (L : endswith (q ++ "/") ".npz" = true) by (apply endswith_iff; now exists p).
    assert (G : forall q p, p ++ ".npz" <> q ++ "/").
    { clear. induction q as [|c q IH]; intros [|d p] H; cbn in H; try discriminate.
      - destruct p; discriminate.
      - destruct q as [|? [|? [|? [|? q]]]]; cbn in H; congruence.
      - injection H as _ H. exact (IH _ H). }
    exact (G _ _ E).
  - intros t ->. now apply (Hb "" t).
Qed.

Lemma path_exists_iff w p : path_exists w p = true <-> exists_path w p.
Proof.
  unfold path_exists, exists_path, is_file, is_dir, dhas, existsb_str.
  rewrite andb_true_iff, negb_true_iff, String.eqb_neq, orb_true_iff, existsb_exists.
  split; intros [H1 H2]; (split; [exact H1|]).
  - destruct H2 as [H2|(x & H2 & H3)].
    + destruct (dget p (w_files w)) as [s|]; [left; now exists s|discriminate].
    + right. apply String.eqb_eq in H3. now subst.
  - destruct H2 as [[s ->]|H2]; [now left|]. right. exists p. split; [exact H2|apply String.eqb_refl].
Qed.

(** ** C25 *)
Section Gen.
  Context {N : Num}.

  Lemma from_dict_none band d : (forall k v, In (k, v) d -> k <> band /\ k <> lower band) -> lutfile_from_dict band d = None.
  Proof.
    induction d as [|[k v] d IH]; intros H; [reflexivity|]. cbn [lutfile_from_dict].
    destruct (H k v (or_introl eq_refl)) as [A B]. apply String.eqb_neq in A, B. rewrite A, B. cbn. apply IH.
    intros k' v' Hi. apply (H k' v'). now right.
  Qed.
  Lemma from_dict_some band before k s after : k = band \/ k = lower band ->
    (forall k' v, In (k', v) before -> k' <> band /\ k' <> lower band) ->
    lutfile_from_dict band (before ++ (k, s) :: after) = Some s.
  Proof.
    intros Hk. induction before as [|[k' v] d IH]; intros H; cbn [app lutfile_from_dict].
    - destruct Hk as [Hk|Hk]; subst k; rewrite String.eqb_refl; [reflexivity|]. now rewrite orb_true_r.
    - destruct (H k' v (or_introl eq_refl)) as [A B]. apply String.eqb_neq in A, B. rewrite A, B. cbn. apply IH.
      intros k1 v1 Hi. apply (H k1 v1). now right.
  Qed.

  Lemma name_from_config w (options : dict cfg) platform instrument band s dir :
    s <> "" ->
    exists f, (if String.eqb s "" then Ok (Some "")
      else let f := if endswith s ".npz" then s else s ++ ".npz" in
           if path_exists w (dirname f) then Ok (Some f) else d <- Ok dir ;; Ok (Some (os_join d (basename f)))) = Ok (Some f) /\
    cache_file w dir platform instrument band (Some s) f /\ options = options.
  Proof.
    intros Hs. apply String.eqb_neq in Hs. rewrite Hs. cbv zeta. cbn [bind].
    set (full := if endswith s ".npz" then s else s ++ ".npz").
    assert (Hf : ends s ".npz" /\ full = s \/ ~ ends s ".npz" /\ full = s ++ ".npz").
    { unfold full. destruct (endswith s ".npz") eqn:E; [left|right]; (split; [|reflexivity]); [now apply endswith_iff|now apply endswith_not]. }
    assert (He : ends full ".npz") by (destruct Hf as [[H ->]|[_ ->]]; [exact H|now exists s]).
    destruct (path_exists w (dirname full)) eqn:E; (eexists; split; [reflexivity|]; split; [|reflexivity]);
      exists full, (dirname full), (basename full); (split; [exact Hf|]); (split; [apply path_parts_ok|]).
    - left. split; [now apply path_exists_iff|reflexivity].
    - right. split; [rewrite <- path_exists_iff; congruence|]. destruct (base_npz full He) as [B1 B2]. now apply os_join_located.
  Qed.

  Lemma default_located d platform instrument band :
    located d ("tb2rad_lut_" ++ lower platform ++ "_" ++ lower instrument ++ "_" ++ lower band ++ ".npz")
            (os_join d (default_lutname platform instrument band)).
  Proof. apply os_join_located; [discriminate|]. intros t H. discriminate. Qed.

  Lemma set_lutfile_spec (E : nir_env N) platform instrument band w w1 options ask dir :
    get_config (nx_ext E) None w = (w1, Ok options) -> asks_for options platform instrument band ask ->
    table_dir options (nx_tempdir E) dir ->
    exists f, set_lutfile E platform instrument band w = (w1, Ok f) /\ cache_file w1 dir platform instrument band ask f.
  Proof.
    intros Hg Ha Hd. unfold set_lutfile, iobind, look. rewrite Hg.
    replace (match dget "tb2rad_dir" options with None => Ok (nx_tempdir E) | Some (Leaf (LStr d)) => Ok d | Some _ => Err TypeError end)
      with (Ok dir) by (destruct Hd as [->|[-> ->]]; reflexivity).
    unfold lutfile_from_config. destruct Ha as [H|m H H'|m s H H' Hs|m before k s after H H' Hk Hb Hs|m d H H' Hn]; rewrite H; try rewrite H'.
    - cbn [bind]. eexists. split; [reflexivity|]. apply default_located.
    - cbn [bind]. eexists. split; [reflexivity|]. apply default_located.
    - destruct (name_from_config w1 options platform instrument band s dir Hs) as (f & E1 & E2 & _). cbv beta iota zeta in E1 |- *. rewrite E1. cbn [bind].
      exists f. split; [reflexivity|exact E2].
    - rewrite from_dict_some by assumption.
      destruct (name_from_config w1 options platform instrument band s dir Hs) as (f & E1 & E2 & _). cbv beta iota zeta in E1 |- *. rewrite E1. cbn [bind].
      exists f. split; [reflexivity|exact E2].
    - rewrite from_dict_none by assumption. cbn [bind]. eexists. split; [reflexivity|]. apply default_located.
  Qed.

  (** ** The constructor step by step *)
  Lemma iobind_ok {A B} (m : io A) (k : A -> io B) w w1 a : m w = (w1, Ok a) -> iobind m k w = k a w1.
  Proof. intros H. unfold iobind. now rewrite H. Qed.

  Lemma set_lutfile_world (E : nir_env N) p i b w : w_files (fst (set_lutfile E p i b w)) = w_files w.
  Proof.
    unfold set_lutfile, iobind, look. pose proof (get_config_frame (nx_ext E) None w) as H.
    destruct (get_config (nx_ext E) None w) as [w1 [o|]]; apply H.
  Qed.

  (** the constructor as nested cases *)
  Lemma calculator_cases (E : nir_env N) p i band det ws fl sz ml w :
    Calculator E p i band det ws fl sz ml w =
    match RadTbConverter (nx_load E) p i band det ws (nlit N 1 10) with
    | Err e => (w, Err e)
    | Ok c =>
        match nir_band c i band with
        | Err e => (w, Err e)
        | Ok nb =>
            match (match fl with Some f => Ok f | None => get_solarflux E c (fst nb) end) with
            | Err e => (w, Err e)
            | Ok flux =>
                let (w1, o1) := set_lutfile E p i (fst nb) w in
                match o1 with
                | Err e => (w1, Err e)
                | Ok f =>
                    let (w2, o2) := set_lut E c f w1 in
                    (w2, t <- o2 ;; Ok {| cl_conv := c; cl_bandname := fst nb; cl_bandwavelength := snd nb; cl_solar_flux := flux;
                            cl_sunz_threshold := sz; cl_masking_limit := ml; cl_lutfile := f; cl_lut := t |})
                end
            end
        end
    end.
  Proof.
    unfold Calculator, iobind, M_Download.lift, ret.
    destruct (RadTbConverter _ _ _ _ _ _ _) as [c|]; [|reflexivity].
    destruct (nir_band c i band) as [nb|]; [|reflexivity].
    destruct (match fl with Some f => Ok f | None => get_solarflux E c (fst nb) end) as [flux|]; [|reflexivity].
    destruct (set_lutfile E p i (fst nb) w) as [w1 [f|]]; [|reflexivity].
    destruct (set_lut E c f w1) as [w2 [t|]]; reflexivity.
  Qed.

  Definition wrote (E : nir_env N) (q : request N) (w w' : world) : Prop :=
    exists P t, generates E q P t /\ (path_exists w P = false \/ P = ".npz") /\
      forall p, dget p (w_files w') = if String.eqb p P then Some (nx_enc E t) else dget p (w_files w).

  Lemma savez_path_cases f : f = savez_path f \/ f ++ ".npz" = savez_path f.
  Proof. unfold savez_path. destruct (endswith f ".npz"); auto. Qed.

  Lemma set_lutfile_npz (E : nir_env N) p i b w w1 f : set_lutfile E p i b w = (w1, Ok f) -> f = "" \/ ends f ".npz".
  Proof.
    unfold set_lutfile, iobind, look. destruct (get_config (nx_ext E) None w) as [w2 [o|]]; [|discriminate].
    intros H. injection H as <- H.
    assert (G : forall d b, basename b <> "" -> (forall t, basename b <> String "/" t) -> ends b ".npz" -> ends (os_join d (basename b)) ".npz").
    { intros d b0 B1 B2 [q Hq]. 
      assert (Hb : ends (basename b0) ".npz").
      { unfold basename in *. pose proof (split_slash_spec b0) as S. destruct (split_slash b0) as [h bb]. cbn [snd] in *.
        destruct S as (E1 & Hb & Hh). rewrite E1 in Hq. clear B1 B2.
        assert (G : forall h q bb, no_slash bb -> (h = "" \/ ends h "/") -> h ++ bb = q ++ ".npz" -> ends bb ".npz").
        { clear. induction h as [|c h IH]; intros q bb Hb Hh E; cbn in E; [now exists q|].
          destruct q as [|d q].
          - exfalso. destruct Hh as [Hh|[x Hh]]; [discriminate|].
            assert (In_slash : exists a b, String c h = a ++ "/" ++ b) by (exists x, ""; exact Hh).
            cbn in E. destruct x as [|x1 [|x2 [|x3 [|x4 x]]]]; cbn in Hh; injection Hh as -> ->; cbn in E; try congruence.
            injection E. intros. destruct x; discriminate.
          - cbn in E. injection E as _ E. apply (IH q bb Hb); [|exact E].
            destruct Hh as [Hh|[x Hh]]; [discriminate|]. destruct x as [|x1 x]; cbn in Hh; injection Hh as _ ->; [left; reflexivity|right; now exists x]. }
        exact (G h q bb Hb Hh Hq). }
      destruct Hb as [x Hx]. pose proof (os_join_located d (basename b0) B1 B2) as [[_ ->]|[[_ ->]|(_ & _ & ->)]]; rewrite Hx.
      - now exists x.
      - exists (d ++ x). now rewrite sapp_assoc.
      - exists (d ++ "/" ++ x). now rewrite !sapp_assoc. }
    set (dir := match dget "tb2rad_dir" o with None => Ok (nx_tempdir E) | Some (Leaf (LStr d)) => Ok d | Some _ => Err TypeError end) in *.
    clearbody dir.
    assert (D : forall d, ends (os_join d (default_lutname p i b)) ".npz").
    { intros d. assert (Hx : exists x, default_lutname p i b = x ++ ".npz").
      { unfold default_lutname. exists ("tb2rad_lut_" ++ lower p ++ "_" ++ lower i ++ "_" ++ lower b). now rewrite !sapp_assoc. }
      destruct Hx as [x Hx]. assert (L : located d (default_lutname p i b) (os_join d (default_lutname p i b)))
        by (apply os_join_located; unfold default_lutname; [intros Ht|intros t Ht]; discriminate).
      destruct L as [[_ ->]|[[_ ->]|(_ & _ & ->)]]; rewrite Hx.
      - now exists x.
      - exists (d ++ x). now rewrite sapp_assoc.
      - exists (d ++ "/" ++ x). now rewrite !sapp_assoc. }
    assert (C : forall r, lutfile_from_config w2 o p i b dir = Ok (Some r) -> r = "" \/ ends r ".npz").
    { intros r. unfold lutfile_from_config. destruct (dget (p ++ "-" ++ i) o) as [[l|m]|]; [| |discriminate].
      - destruct l as [s|bb|z| |l]; try discriminate; [destruct (contains _ s)|destruct (existsb_str _ l)]; discriminate.
      - destruct (dget "tb2rad_lut_filename" m) as [v|]; [|discriminate].
        set (chosen := match v with CMap d => lutfile_from_dict b d | Leaf _ => Some v end). clearbody chosen.
        destruct chosen as [[[s|bb|z| |l]|d]|]; try discriminate; try (destruct (truthy _); discriminate).
        destruct (String.eqb s ""); [intros [= <-]; now left|]. cbv zeta.
        set (full := if endswith s ".npz" then s else s ++ ".npz").
        assert (He : ends full ".npz").
        { unfold full. destruct (endswith s ".npz") eqn:E1; [now apply endswith_iff|now exists s]. }
        destruct (path_exists w2 (dirname full)); [intros [= <-]; now right|].
        destruct dir as [d|]; [|discriminate]. cbn [bind]. intros [= <-]. right. destruct (base_npz full He). now apply G. }
    destruct (lutfile_from_config w2 o p i b dir) as [[r|]|]; [| |discriminate]; cbn [bind] in H.
    - injection H as <-. now apply C.
    - destruct dir as [d|]; [|discriminate]. injection H as <-. right. apply D.
  Qed.

  Lemma set_lut_world (E : nir_env N) c f w : (w_files (fst (set_lut E c f w)) = w_files w) \/
    exists t, path_exists w f = false /\ make_tb2rad_lut c true = Ok t /\
      forall p, dget p (w_files (fst (set_lut E c f w))) = if String.eqb p (savez_path f) then Some (nx_enc E t) else dget p (w_files w).
  Proof.
    unfold set_lut. destruct (path_exists w f) eqn:Ep; [now left|].
    unfold iobind, M_Download.lift. destruct (make_tb2rad_lut c true) as [t|]; [|now left].
    unfold savez, savez_events. cbv zeta. destruct (is_dir w (savez_path f)); [now left|].
    destruct (_ && _); [now left|]. right. exists t. split; [reflexivity|]. split; [reflexivity|].
    intros p. unfold read_tb2rad_lut, look. cbn [fst run_evs fold_left apply_ev w_files set_files].
    unfold file_text. cbn [w_files set_files]. rewrite dget_dset_same. cbn [append].
    destruct (String.eqb_spec p (savez_path f)) as [->|Hn]; [now rewrite dget_dset_same|].
    now rewrite !dget_dset_other by auto.
  Qed.

  Lemma build_world (E : nir_env N) q w : w_files (fst (build E q w)) = w_files w \/ wrote E q w (fst (build E q w)).
  Proof.
    destruct q as [p i band det ws fl sz ml]. unfold build, wrote, generates. cbn [rq_platform rq_instrument rq_band rq_detector rq_wavespace rq_solar_flux rq_sunz_threshold rq_masking_limit].
    rewrite calculator_cases.
    destruct (RadTbConverter _ _ _ _ _ _ _) as [c|] eqn:E1; [|now left].
    destruct (nir_band c i band) as [nb|] eqn:E2; [|now left].
    destruct (match fl with Some f => Ok f | None => get_solarflux E c (fst nb) end) as [flux|]; [|now left].
    pose proof (set_lutfile_world E p i (fst nb) w) as Hw.
    destruct (set_lutfile E p i (fst nb) w) as [w1 [f|]] eqn:E3; [|left; exact Hw]. cbn [fst] in Hw.
    destruct (set_lut_world E c f w1) as [H|(t & H1 & H2 & H3)].
    - left. destruct (set_lut E c f w1) as [w2 o2]; cbn [fst] in *; congruence.
    - right. exists (savez_path f), t. split.
      { exists c, nb, w, w1, f. repeat split; auto. apply savez_path_cases. }
      split.
      { unfold path_exists in H1 |- *. 
        destruct (set_lutfile_npz E p i (fst nb) w w1 f E3) as [->|Hf]; [now right|]. left.
        assert (savez_path f = f) as -> by (unfold savez_path; apply endswith_iff in Hf; now rewrite Hf).
        assert (Hd : is_file w1 f = is_file w f) by (unfold is_file, dhas; now rewrite Hw).
        rewrite Hd in H1.
        assert (Hdir : is_dir w f = true -> is_dir w1 f = true).
        { revert E3. unfold set_lutfile, iobind, look. destruct (get_config (nx_ext E) None w) as [w3 [o|]] eqn:G; [|discriminate].
          intros [= <- _]. revert G. unfold get_config. destruct (bind _ _) as [[[cc rsr] ray]|]; [|discriminate].
          pose proof (makedirs_frame (nx_ext E) rsr w). destruct (makedirs (nx_ext E) rsr w) as [w4 [[]|]] eqn:M1; [|discriminate].
          destruct (makedirs (nx_ext E) ray w4) as [w5 [[]|]] eqn:M2; [|discriminate]. intros [= <- _].
          apply makedirs_ok in M1, M2. destruct M1 as (_ & _ & _ & _ & D1), M2 as (_ & _ & _ & _ & D2).
          unfold is_dir, existsb_str. destruct D2 as [->| ->], D1 as [->| ->]; cbn [existsb]; intros ->; rewrite ?orb_true_r; reflexivity. }
        destruct (String.eqb f ""); [reflexivity|]. cbn [negb andb] in *. apply orb_false_iff in H1 as [H1 H1'].
        rewrite H1. cbn. destruct (is_dir w f); [|reflexivity]. rewrite Hdir in H1' by reflexivity. discriminate. }
      intros x. replace (dget x (w_files w)) with (dget x (w_files w1)) by now rewrite Hw.
      rewrite <- H3. f_equal. destruct (set_lut E c f w1) as [w2 [t'|]]; reflexivity.
  Qed.

  (** what a successful call has read *)
  Lemma build_reads (E : nir_env N) q w w' c : build E q w = (w', Ok c) ->
    (exists s, dget (cl_lutfile c) (w_files w') = Some s /\ nx_dec E s = Ok (cl_lut c)) /\
    (forall t, make_tb2rad_lut (cl_conv c) true = Ok t -> generates E q (cl_lutfile c) t).
  Proof.
    destruct q as [p i band det ws fl sz ml]. unfold build, generates. cbn [rq_platform rq_instrument rq_band rq_detector rq_wavespace rq_solar_flux rq_sunz_threshold rq_masking_limit].
    rewrite calculator_cases.
    destruct (RadTbConverter _ _ _ _ _ _ _) as [cv|] eqn:E1; [|discriminate].
    destruct (nir_band cv i band) as [nb|] eqn:E2; [|discriminate].
    destruct (match fl with Some f => Ok f | None => get_solarflux E cv (fst nb) end) as [flux|]; [|discriminate].
    destruct (set_lutfile E p i (fst nb) w) as [w1 [f|]] eqn:E3; [|discriminate].
    destruct (set_lut E cv f w1) as [w2 [t|]] eqn:E4; [|discriminate]. intros [= <- <-].
    cbn [cl_lutfile cl_lut cl_conv]. split.
    - assert (R : exists w0, read_tb2rad_lut E f w0 = (w2, Ok t)).
      { unfold set_lut in E4. destruct (path_exists w1 f); [now exists w1|].
        unfold iobind, M_Download.lift in E4. destruct (make_tb2rad_lut cv true) as [t0|]; [|discriminate].
        destruct (savez E f t0 w1) as [w3 [|]]; [|discriminate]. now exists w3. }
      destruct R as [w0 R]. unfold read_tb2rad_lut, look in R. injection R as <- R. unfold read_file in R.
      destruct (is_dir w0 f); [discriminate|]. destruct (dget f (w_files w0)) as [s|]; [|discriminate].
      now exists s.
    - intros t' Ht'. exists cv, nb, w, w1, f. repeat split; auto.
  Qed.

  (** C25 for constructed calculators *)
  Lemma cache_of_calculator (E : nir_env N) q w w' c w1 options ask dir :
    build E q w = (w', Ok c) -> get_config (nx_ext E) None w = (w1, Ok options) ->
    asks_for options (rq_platform q) (rq_instrument q) (cl_bandname c) ask -> table_dir options (nx_tempdir E) dir ->
    cache_file w1 dir (rq_platform q) (rq_instrument q) (cl_bandname c) ask (cl_lutfile c).
  Proof.
    destruct q as [p i band det ws fl sz ml]. unfold build. cbn [rq_platform rq_instrument rq_band rq_detector rq_wavespace rq_solar_flux rq_sunz_threshold rq_masking_limit].
    rewrite calculator_cases.
    destruct (RadTbConverter _ _ _ _ _ _ _) as [cv|] eqn:E1; [|discriminate].
    destruct (nir_band cv i band) as [nb|] eqn:E2; [|discriminate].
    destruct (match fl with Some f => Ok f | None => get_solarflux E cv (fst nb) end) as [flux|]; [|discriminate].
    destruct (set_lutfile E p i (fst nb) w) as [w2 [f|]] eqn:E3; [|discriminate].
    destruct (set_lut E cv f w2) as [w3 [t|]] eqn:E4; [|discriminate]. intros [= <- <-].
    cbn [cl_lutfile cl_bandname]. intros Hg Ha Hd.
    destruct (set_lutfile_spec E p i (fst nb) w w1 options ask dir Hg Ha Hd) as (f' & E5 & Hc).
    rewrite E3 in E5. injection E5 as -> ->. exact Hc.
  Qed.

  (** ** C26 *)
  (** existing files are never changed *)
  Lemma wrote_keeps (E : nir_env N) q w w' p s : wrote E q w w' -> p <> ".npz" -> p <> "" ->
    dget p (w_files w) = Some s -> dget p (w_files w') = Some s.
  Proof.
    intros (P & t & _ & HP & H) Hn He Hs. rewrite H. destruct (String.eqb_spec p P) as [->|]; [|exact Hs].
    destruct HP as [HP|HP]; [|congruence]. unfold path_exists, is_file, dhas in HP. rewrite Hs in HP.
    apply String.eqb_neq in He. rewrite He in HP. discriminate.
  Qed.
  Lemma build_keeps (E : nir_env N) q w p s : p <> ".npz" -> p <> "" ->
    dget p (w_files w) = Some s -> dget p (w_files (fst (build E q w))) = Some s.
  Proof.
    intros Hn He Hs. destruct (build_world E q w) as [H|H]; [now rewrite H|]. now apply (wrote_keeps E q w).
  Qed.
  Lemma history_keeps (E : nir_env N) qs w w' p s : history E qs w w' -> p <> ".npz" -> p <> "" ->
    dget p (w_files w) = Some s -> dget p (w_files w') = Some s.
  Proof.
    intros H Hn He. induction H as [|q qs w w1 w2 o Hb Hh IH]; [auto|]. intros Hs. apply IH.
    pose proof (build_keeps E q w p s Hn He Hs) as K. now rewrite Hb in K.
  Qed.

  (** calls that can only generate [t] for the file [P] *)
  Definition agree (E : nir_env N) (P : string) (t : tblut N) (q : request N) : Prop := forall t', generates E q P t' -> t' = t.

  Lemma build_invariant (E : nir_env N) P t q w : agree E P t q ->
    (forall s, dget P (w_files w) = Some s -> s = nx_enc E t) ->
    forall s, dget P (w_files (fst (build E q w))) = Some s -> s = nx_enc E t.
  Proof.
    intros Ha Hw s Hs. destruct (build_world E q w) as [H|(P' & t' & G & _ & H)].
    - rewrite H in Hs. now apply Hw.
    - rewrite H in Hs. destruct (String.eqb_spec P P') as [->|]; [|now apply Hw]. injection Hs as <-. now rewrite (Ha t' G).
  Qed.
  Lemma history_invariant (E : nir_env N) P t qs w w' : history E qs w w' -> Forall (agree E P t) qs ->
    (forall s, dget P (w_files w) = Some s -> s = nx_enc E t) ->
    forall s, dget P (w_files w') = Some s -> s = nx_enc E t.
  Proof.
    intros H. induction H as [|q qs w w1 w2 o Hb Hh IH]; intros Ha Hw; [exact Hw|]. inversion Ha; subst.
    apply IH; [assumption|]. pose proof (build_invariant E P t q w H1 Hw) as K. now rewrite Hb in K.
  Qed.

  Lemma own_table (E : nir_env N) P t qs q w w1 w2 c : history E qs w w1 -> build E q w1 = (w2, Ok c) -> cl_lutfile c = P ->
    (forall q' t', In q' (qs ++ [q])%list -> generates E q' P t' -> t' = t) ->
    (forall s, dget P (w_files w) = Some s -> s = nx_enc E t) -> nx_dec E (nx_enc E t) = Ok t ->
    cl_lut c = t /\ forall t', make_tb2rad_lut (cl_conv c) true = Ok t' -> cl_lut c = t'.
  Proof.
    intros Hh Hb HP Ha Hw Hd.
    assert (F : Forall (agree E P t) qs). { apply Forall_forall. intros q' Hq t'. apply Ha, in_or_app. now left. }
    assert (A : agree E P t q). { intros t'. apply Ha, in_or_app. right. now left. }
    pose proof (history_invariant E P t qs w w1 Hh F Hw) as K.
    pose proof (build_invariant E P t q w1 A K) as K2. rewrite Hb in K2.
    destruct (build_reads E q w1 w2 c Hb) as [(s & R1 & R2) G]. rewrite HP in R1. rewrite (K2 s R1), Hd in R2.
    injection R2 as R2. split; [congruence|]. intros t' Ht'. rewrite <- R2. symmetry. apply A. rewrite <- HP. now apply G.
  Qed.

  Lemma first_come (E : nir_env N) q1 q2 qs w w1 w2 w3 c1 c2 : build E q1 w = (w1, Ok c1) -> history E qs w1 w2 ->
    build E q2 w2 = (w3, Ok c2) -> cl_lutfile c2 = cl_lutfile c1 -> cl_lutfile c1 <> ".npz" -> cl_lutfile c1 <> "" ->
    cl_lut c2 = cl_lut c1.
  Proof.
    intros H1 Hh H2 Hf Hn He. destruct (build_reads E q1 w w1 c1 H1) as [(s & R1 & R2) _].
    destruct (build_reads E q2 w2 w3 c2 H2) as [(s' & R1' & R2') _].
    pose proof (history_keeps E qs w1 w2 _ s Hh Hn He R1) as K.
    pose proof (build_keeps E q2 w2 _ s Hn He K) as K2. rewrite H2 in K2. cbn [fst] in K2. rewrite Hf in R1'. congruence.
  Qed.

  Lemma after_crash (E : nir_env N) q P l w w' : crashed E q P l w w' -> l <> [] -> P <> ".npz" -> P <> "" ->
    exists t s, generates E q P t /\ String.prefix s (nx_enc E t) = true /\ dget P (w_files w') = Some s /\
    forall qs w2, history E qs w' w2 -> dget P (w_files w2) = Some s /\
      forall q' w3 o c, build E q' w2 = (w3, o) -> o = Ok c -> cl_lutfile c = P -> nx_dec E s = Ok (cl_lut c).
  Proof.
    intros (c & nb & w1 & t & H1 & H2 & H3 & H4 & H5 & H6 & H7 & ->) Hl Hn He.
    assert (HP : savez_path P = P).
    { destruct (set_lutfile_npz E _ _ _ _ _ _ H3) as [->|Hf]; [congruence|]. unfold savez_path. apply endswith_iff in Hf. now rewrite Hf. }
    unfold savez_events in H6, H7. rewrite HP in H6, H7. cbv zeta in H6, H7.
    destruct (is_dir w1 P); [discriminate|]. destruct (_ && _); [discriminate|]. cbn [fst] in H7. clear H6.
    exists t. assert (K : exists s, String.prefix s (nx_enc E t) = true /\ dget P (w_files (run_evs l w1)) = Some s).
    { inversion H7 as [x|x|x y l' Hc]; subst; [congruence|]. inversion Hc as [x|p a a' x Hpre|x y l2 Hc2]; subst.
      - exists "". split; [destruct (nx_enc E t); reflexivity|]. cbn. apply dget_dset_same.
      - exists a'. split; [exact Hpre|]. cbn. unfold file_text. cbn. rewrite !dget_dset_same. reflexivity.
      - inversion Hc2; subst. exists (nx_enc E t). split; [|cbn; unfold file_text; cbn; now rewrite !dget_dset_same].
        clear. induction (nx_enc E t) as [|ch r IH]; cbn; [reflexivity|]. destruct (ascii_dec ch ch); [exact IH|congruence]. }
    destruct K as (s & K1 & K2). exists s. split; [exists c, nb, w, w1, P; repeat split; auto|].
    split; [exact K1|]. split; [exact K2|]. intros qs w2 Hh.
    pose proof (history_keeps E qs _ w2 P s Hh Hn He K2) as K3. split; [exact K3|].
    intros q' w3 o c' Hb -> Hf. destruct (build_reads E q' w2 w3 c' Hb) as [(s' & R1 & R2) _].
    pose proof (build_keeps E q' w2 P s Hn He K3) as K4. rewrite Hb in K4. cbn [fst] in K4. rewrite Hf in R1. congruence.
  Qed.
End Gen.

Section Gen2.
  Context {N : Num}.

  (** A converter's band is the calculator's. *)
  Lemma converter_band load p i b det ws tbr (c : converter N) : RadTbConverter load p i b det ws tbr = Ok c ->
    resolve_band i b (cv_rsr c) = Ok (cv_bandname c, cv_bandwavelength c) /\ cv_instrument c = i.
  Proof.
    unfold RadTbConverter. intros H.
    destruct (check_wavespace ws); [|discriminate]. cbn [bind] in H.
    destruct (neqb N tbr n0); [discriminate|]. cbn [bind] in H.
    destruct (load p i) as [s|]; [|discriminate]. cbn [bind] in H.
    destruct (rsr_in_space s ws) as [[rsr [u sc]]|]; [|discriminate]. cbn [bind] in H.
    destruct (resolve_band i b rsr) as [[bn bw]|] eqn:E1; [|discriminate]. cbn [bind] in H.
    destruct (band_entry rsr bn); [|discriminate]. cbn [bind] in H.
    destruct (dget det _); [|discriminate]. cbn [of_option bind] in H.
    destruct (get_arr ws _); [|discriminate]. cbn [bind] in H.
    destruct (get_arr "response" _); [|discriminate]. cbn [bind] in H.
    destruct (trapezoid _ _); [|discriminate]. cbn [bind] in H. injection H as <-. split; [exact E1|reflexivity].
  Qed.

  (** C16 *)
  Lemma nir_wavenumber (E : nir_env N) p i b det fl sz ml w (s : rsr_state N) :
    nx_load E p i = Ok s -> reader_shaped (rs_rsr s) -> neqb N (nlit N 1 10) n0 = false ->
    exists e, Calculator E p i b det WAVE_NUMBER fl sz ml w = (w, Err e) /\
      ((exists c, RadTbConverter (nx_load E) p i b det WAVE_NUMBER (nlit N 1 10) = Ok c) \/ (exists x, b = BNumber x) -> e = KeyError).
  Proof.
    intros Hl Hr Ht. rewrite calculator_cases.
    destruct (RadTbConverter (nx_load E) p i b det WAVE_NUMBER (nlit N 1 10)) as [c|e] eqn:Hc.
    - exists KeyError. split; [|reflexivity]. 
      destruct (converter_band _ _ _ _ _ _ _ _ Hc) as [Hb _].
      assert (HR : cv_rsr c = PlainDict (dmap (dmap reader_det2wn) (rs_rsr s))).
      { unfold RadTbConverter in Hc. change (check_wavespace WAVE_NUMBER) with (Ok tt) in Hc. cbn [bind] in Hc.
        rewrite Ht, Hl in Hc. cbn [bind] in Hc. unfold rsr_in_space in Hc. rewrite String.eqb_refl, convert_reader in Hc by auto.
        cbn [bind] in Hc. destruct (resolve_band i b _) as [[bn bw]|]; [|discriminate]. cbn [bind] in Hc.
        destruct (band_entry _ bn); [|discriminate]. cbn [bind] in Hc.
        destruct (dget det _); [|discriminate]. cbn [of_option bind] in Hc.
        destruct (get_arr WAVE_NUMBER _); [|discriminate]. cbn [bind] in Hc.
        destruct (get_arr "response" _); [|discriminate]. cbn [bind] in Hc.
        destruct (trapezoid _ _); [|discriminate]. cbn [bind] in Hc. injection Hc as <-. reflexivity. }
      destruct b as [name|x|].
      + unfold nir_band. rewrite HR. cbn [rsr_getitem]. rewrite dget_dmap.
        destruct (dget (translate_band i name) (rs_rsr s)) as [bd|] eqn:E4; [|reflexivity]. cbn [option_map of_option bind].
        rewrite dget_dmap. destruct (dget "det-1" bd) as [d0|] eqn:E5; [|reflexivity]. cbn [option_map of_option bind].
        destruct (dget_reader_band _ _ _ Hr E4) as [_ HF].
        unfold get_num. rewrite converted_no_cw by (eapply dget_reader_det; eauto). reflexivity.
      + rewrite (wn_bynumber N _ _ _ _ _ _ s Hl Hr Ht) in Hc. discriminate.
      + unfold nir_band. cbn in Hb. exfalso. revert Hc. unfold RadTbConverter. change (check_wavespace WAVE_NUMBER) with (Ok tt). cbn [bind].
        rewrite Ht, Hl. cbn [bind]. unfold rsr_in_space. rewrite String.eqb_refl, convert_reader by auto. discriminate.
    - exists e. split; [reflexivity|]. intros [[c Hc']|[x ->]]; [discriminate|].
      rewrite (wn_bynumber N _ _ _ _ _ _ s Hl Hr Ht) in Hc. congruence.
  Qed.
End Gen2.

(** C27 *)
Local Open Scope R_scope.

Lemma band_test (x : XR) : (nltb XRN (nlit XRN 395 100) x || nltb XRN x (nlit XRN 35 10))%bool = false <-> in_band x.
Proof.
  cbn. unfold xlit. destruct x as [v| | |]; cbn; try (split; [discriminate|contradiction]); try tauto.
  rewrite orb_false_iff, !Rltb_false_iff. split; intros; lra.
Qed.

Lemma accepted_band (E : nir_env XRN) q w w' c : build E q w = (w', Ok c) ->
  in_band (cl_bandwavelength c) /\
  match rq_band q with
  | BNumber x => cl_bandwavelength c = x
  | BStr s => exists b d, rsr_getitem (cv_rsr (cl_conv c)) (cl_bandname c) = Ok b /\ dget "det-1" b = Some d /\
                          get_num "central_wavelength" d = Ok (cl_bandwavelength c)
  | BOther => False
  end.
Proof.
  destruct q as [p i band det ws fl sz ml]. unfold build. cbn [rq_platform rq_instrument rq_band rq_detector rq_wavespace rq_solar_flux rq_sunz_threshold rq_masking_limit].
  rewrite calculator_cases.
  destruct (RadTbConverter _ _ _ _ _ _ _) as [cv|] eqn:E1; [|discriminate].
  destruct (nir_band cv i band) as [nb|] eqn:E2; [|discriminate].
  destruct (match fl with Some f => Ok f | None => get_solarflux E cv (fst nb) end) as [flux|]; [|discriminate].
  destruct (set_lutfile E p i (fst nb) w) as [w2 [f|]] eqn:E3; [|discriminate].
  destruct (set_lut E cv f w2) as [w3 [t|]] eqn:E4; [|discriminate]. intros [= <- <-].
  cbn [cl_bandwavelength cl_bandname cl_conv].
  unfold nir_band in E2. destruct band as [name|x|]; [|clear E1|discriminate]; cycle 1.
  - destruct (get_bandname_from_wavelength _ _ _ _ _) as [bn|]; [|discriminate]. cbn [bind] in E2.
    destruct (_ || _)%bool eqn:Eb in E2; [discriminate|]. apply band_test in Eb.
    destruct bn as [n| |]; try discriminate. injection E2 as <-. auto.
  - destruct (rsr_getitem _ _) as [b|] eqn:G1; [|discriminate]. cbn [bind] in E2.
    destruct (dget "det-1" b) as [d|] eqn:G2; [|discriminate]. cbn [bind of_option] in E2.
    destruct (get_num _ d) as [cw|] eqn:G3; [|discriminate]. cbn [bind] in E2.
    destruct (_ || _)%bool eqn:Eb in E2; [discriminate|]. apply band_test in Eb. injection E2 as <-. split; [exact Eb|].
    exists b, d. auto.
Qed.

Lemma refused_band (E : nir_env XRN) q cv w :
  RadTbConverter (nx_load E) (rq_platform q) (rq_instrument q) (rq_band q) (rq_detector q) (rq_wavespace q) (Fin (1 / 10)) = Ok cv ->
  match rq_band q with
  | BNumber x => ~ in_band x
  | BStr s => exists b d x, rsr_getitem (cv_rsr cv) (translate_band (rq_instrument q) s) = Ok b /\ dget "det-1" b = Some d /\
                            get_num "central_wavelength" d = Ok x /\ ~ in_band x
  | BOther => False
  end ->
  build E q w = (w, Err NotImplementedError).
Proof.
  destruct q as [p i band det ws fl sz ml]. unfold build. cbn [rq_platform rq_instrument rq_band rq_detector rq_wavespace rq_solar_flux rq_sunz_threshold rq_masking_limit].
  intros Hc Hb. rewrite calculator_cases. replace (nlit XRN 1 10) with (Fin (1 / 10)) by reflexivity.
  change (num XRN) with XR in *. rewrite Hc. pose proof (converter_band _ _ _ _ _ _ _ _ Hc) as [Hr _].
  unfold nir_band. destruct band as [name|x|]; [| |contradiction]; cycle 1.
  - unfold resolve_band in Hr. destruct (get_bandname_from_wavelength _ _ _ _ _) as [bn|]; [|discriminate]. cbn [bind].
    destruct (_ || _)%bool eqn:Eb; [reflexivity|]. apply band_test in Eb. contradiction.
  - destruct Hb as (b & d & x & G1 & G2 & G3 & G4). rewrite G1. cbn [bind]. rewrite G2. cbn [bind of_option]. rewrite G3. cbn [bind].
    destruct (_ || _)%bool eqn:Eb; [reflexivity|]. apply band_test in Eb. contradiction.
Qed.
