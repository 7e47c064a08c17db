(** Specification vocabulary: the converters of raw response files. *)
From Coq Require Import String Ascii List Bool ZArith Reals Sorted.
From Verif Require Import Base NumSig XR M_Tables M_Utils M_World M_Hdf5 M_Raw.
Import ListNotations.
Local Open Scope string_scope.

(** ** Readers of text files *)
Inductive text_reader :=
  Abi | Avhrr | Cocts | Mersi1 | Mersi2 | Mersi3 | MersiRM | Virr | Ami | MsuGs | SlstrTxt | Agri | Ghi.
Definition make {N : Num} (k : text_reader) (options : dict cfg) (there : string -> bool)
    (columns : string -> nat -> res (list (list N))) : string -> string -> res (instrument_rsr N) :=
  match k with
  | Abi => AbiRSR options there columns | Avhrr => AvhrrRSR options there columns | Cocts => CoctsRSR options there columns
  | Mersi1 => Mersi1RSR options there columns | Mersi2 => Mersi2RSR options there columns | Mersi3 => Mersi3RSR options there columns
  | MersiRM => MersiRMRSR options there columns | Virr => VirrRSR options there columns | Ami => AmiRSR options there columns
  | MsuGs => MsugsRSR options there columns | SlstrTxt => SlstrTxtRSR options there columns
  | Agri => AgriRSR options there columns | Ghi => GhiRSR options there columns
  end.

(** the file that the configuration names for a band *)
Definition configured (options : dict cfg) (platform instrument band file : string) : Prop :=
  exists m path f, dget (platform ++ "-" ++ instrument) options = Some (CMap m) /\
    dget "path" m = Some (Leaf (LStr path)) /\ dget band m = Some (Leaf (LStr f)) /\ file = path ++ "/" ++ f.

(** readers for which a missing file is an error *)
Definition insists (k : text_reader) : Prop := k = Abi \/ k = SlstrTxt.

(** what a reader calls its instrument: [fixed], or what the table of
    instruments says about the platform, or the reader's own name *)
Definition own_name (k : text_reader) : string :=
  match k with
  | Abi => "abi" | Avhrr => "" | Cocts => "cocts" | Mersi1 => "mersi-1" | Mersi2 => "mersi-2" | Mersi3 => "mersi3" | MersiRM => "mersi-rm"
  | Virr => "virr" | Ami => "ami" | MsuGs => "msu-gs" | SlstrTxt => "slstr" | Agri => "agri" | Ghi => "ghi"
  end.
Definition fixed (k : text_reader) : Prop := k = Abi \/ k = Mersi3 \/ k = Ami \/ k = MsuGs \/ k = SlstrTxt.
Inductive named (k : text_reader) (p : string) : string -> Prop :=
| named_fixed : fixed k -> named k p (own_name k)
| named_table i : ~ fixed k -> dget p INSTRUMENTS = Some (IOne i) -> named k p i
| named_unknown : ~ fixed k -> k <> Avhrr -> dget p INSTRUMENTS = None -> named k p (own_name k)
| named_several l : k = Mersi1 \/ k = Agri \/ k = Ghi -> dget p INSTRUMENTS = Some (IList l) -> named k p (own_name k).

(** the bands of which a reader wants a file: all of the instrument's *)
Definition ch (n : nat) : list string := map (append "ch") (firstn n
  ["1"; "2"; "3"; "4"; "5"; "6"; "7"; "8"; "9"; "10"; "11"; "12"; "13"; "14"; "15"; "16"; "17"; "18"; "19"; "20"; "21"; "22"; "23"; "24"; "25"]).
Definition listed (k : text_reader) (platform : string) : list string :=
  match k with
  | Abi | Ami => ch 16 | Cocts | MersiRM => ch 8 | Mersi2 | Mersi3 => ch 25 | MsuGs => ch 10 | SlstrTxt => ch 9 | Ghi => ch 7
  | Virr => []
  | Avhrr => match dget platform INSTRUMENTS with
             | Some (IOne "avhrr/1") => ch 4 | Some (IOne "avhrr/2") => ch 5
             | Some (IOne "avhrr/3") => ["ch1"; "ch2"; "ch3a"; "ch3b"; "ch4"; "ch5"]
             | _ => []
             end
  | Mersi1 => if String.eqb platform "FY-3B" then remove string_dec "ch5" (ch 20) else ch 20
  | Agri => if String.eqb platform "FY-4A" then ch 14 else ch 15
  end%list.

(** ** Points of a curve *)
Definition points {N : Num} (r : raw N) : list (N * N) := combine (rw_wavelength r) (rw_response r).
Definition same_lengths {N : Num} (r : raw N) : Prop := List.length (rw_wavelength r) = List.length (rw_response r).

(** ** Fields of a line, separated by blanks *)
Definition white_space (c : ascii) : bool :=
  existsb (Ascii.eqb c) ["009"; "010"; "011"; "012"; "013"; "028"; "029"; "030"; "031"; "032"]%char.
Fixpoint blank (s : string) : Prop := match s with EmptyString => True | String c t => white_space c = true /\ blank t end.
Fixpoint solid (s : string) : Prop := match s with EmptyString => True | String c t => white_space c = false /\ solid t end.
Definition at_end (s : string) : Prop := match s with EmptyString => True | String c _ => white_space c = true end.
Inductive fields : string -> list string -> Prop :=
| fields_none s : blank s -> fields s []
| fields_more b w s l : blank b -> w <> "" -> solid w -> at_end s -> fields s l -> fields (b ++ w ++ s) (w :: l).

Section MODIS.
  Context {N : Num}.
  Variable py_int : string -> res Z.
  Variable py_float : string -> res N.

  (** a line of a MODIS file: a comment, or detector, wavelength and response *)
  Inductive modis_row : string -> option (Z * N * N) -> Prop :=
  | mr_comment s : modis_row (String "#" s) None
  | mr_row line a b c d z w r : (forall s, line <> String "#" s) -> fields line [a; b; c; d] ->
      py_int b = Ok z -> py_float c = Ok w -> py_float d = Ok r -> modis_row line (Some (z, w, r)).
  (** the rows of a detector, without those marked as missing *)
  Definition rows_of (rows : list (option (Z * N * N))) (z : Z) : list (N * N) :=
    flat_map (fun o => match o with
                       | Some (z', w, r) => if Z.eqb z z' && negb (neqb N r (nlit N (-99) 1)) then [(w, r)] else []
                       | None => [] end) rows.
  Definition mentions (rows : list (option (Z * N * N))) (z : Z) : Prop := exists w r, In (Some (z, w, r)) rows.
End MODIS.

(** ** Where a curve is in its file *)
Inductive one_of (l : list string) (s : string) : Prop := one_of_intro : In s l -> one_of l s.
(** reader, platform, band: lines to skip, column of the response (wavelengths
    are in column 0) and how many of the unit make a micrometre *)
Inductive layout : text_reader -> string -> string -> nat -> nat -> Z -> Prop :=
| l_abi p b : layout Abi p b 2 2 1
| l_avhrr1 p b : dget p INSTRUMENTS = Some (IOne "avhrr/1") -> layout Avhrr p b 1 1 1000
| l_avhrr2 p b : dget p INSTRUMENTS = Some (IOne "avhrr/2") -> layout Avhrr p b 1 1 1
| l_avhrr3 p b : dget p INSTRUMENTS = Some (IOne "avhrr/3") -> layout Avhrr p b 1 1 1
| l_cocts p n b : nth_error ["ch1"; "ch2"; "ch3"; "ch4"; "ch5"; "ch6"; "ch7"; "ch8"] n = Some b -> layout Cocts p b 0 (S n) 1000
| l_mersi2 p b : layout Mersi2 p b 0 1 1000
| l_mersi3 p b : layout Mersi3 p b 0 1 1000
| l_mersirm p b : layout MersiRM p b 1 1 1000.

(** bands of AGRI and GHI whose files are in nanometres (1000) or micrometres (1) *)
Inductive geo_unit : text_reader -> string -> string -> Z -> Prop :=
| gu_4a_nano b : one_of ["ch1"; "ch2"; "ch3"] b -> geo_unit Agri "FY-4A" b 1000
| gu_4a_micro b : one_of ["ch4"; "ch5"; "ch6"; "ch7"; "ch8"; "ch9"; "ch10"; "ch11"; "ch12"; "ch13"; "ch14"] b -> geo_unit Agri "FY-4A" b 1
| gu_4b_nano b : one_of ["ch1"; "ch2"; "ch3"; "ch4"; "ch5"; "ch6"] b -> geo_unit Agri "FY-4B" b 1000
| gu_4b_micro b : one_of ["ch7"; "ch8"; "ch9"; "ch10"; "ch11"; "ch12"; "ch13"; "ch14"; "ch15"] b -> geo_unit Agri "FY-4B" b 1
| gu_ghi_nano b : one_of ["ch1"; "ch2"; "ch3"; "ch4"; "ch5"; "ch6"] b -> geo_unit Ghi "FY-4B" b 1000
| gu_ghi_micro : geo_unit Ghi "FY-4B" "ch7" 1.

(** The part of a curve with a response above one thousandth *)
Inductive trimmed : list (R * R) -> list (R * R) -> Prop :=
| tr_nil : trimmed [] []
| tr_keep w r l l' : (1 / 1000 < r)%R -> trimmed l l' -> trimmed ((w, r) :: l) ((w, r) :: l')
| tr_drop w r l l' : (r <= 1 / 1000)%R -> trimmed l l' -> trimmed ((w, r) :: l) l'.
Definition curve (r : raw XRN) (l : list (R * R)) : Prop :=
  rw_wavelength r = map (fun p => Fin (fst p)) l /\ rw_response r = map (fun p => Fin (snd p)) l.

(** ** SEVIRI *)
Definition is_infrared (name : string) : Prop := exists rest, name = "IR" ++ rest.
(** sheets that hold a channel *)
Definition channel_sheet {N : Num} (s : sheet N) : Prop := sh_name s <> "Info" /\ sh_name s <> "Requirements".
Definition satellites : list string := ["Meteosat-8"; "Meteosat-9"; "Meteosat-10"; "Meteosat-11"].
(** rows 14 to 113 of a column *)
Definition infrared_rows {N : Num} (s : sheet N) (col : nat) (l : list N) : Prop :=
  exists c, nth_error (sh_columns s) col = Some c /\ l = firstn 100 (skipn 13 c).
(** the same for every kind of channel: where its block of a hundred rows begins,
    and which column belongs to the [n]-th satellite (the first of two for
    the infrared channels, at 95 K; the second is at 85 K) *)
Inductive sheet_layout (name : string) : nat -> (nat -> nat) -> bool -> Prop :=
| lay_hrv rest : name = "HRV" ++ rest -> sheet_layout name 37 (fun n => nth n [1; 3; 5; 6] 0)%nat false
| lay_ir : is_infrared name -> sheet_layout name 13 (fun n => 2 * n + 1)%nat true
| lay_vis : ~ is_infrared name -> ~ (exists rest, name = "HRV" ++ rest) -> sheet_layout name 12 (fun n => n + 1)%nat false.
Definition block {N : Num} (s : sheet N) (row col : nat) (l : list N) : Prop :=
  exists c, nth_error (sh_columns s) col = Some c /\ l = firstn 100 (skipn row c).
(** the curves of a channel and a satellite *)
Inductive has_curve {N : Num} (c : sev_channel N) (sat : string) : list N -> Prop :=
| hc_plain l : dget sat (sv_sats c) = Some (SArr l) -> has_curve c sat l
| hc_95 a b : dget sat (sv_sats c) = Some (STemps a b) -> has_curve c sat a
| hc_85 a b : dget sat (sv_sats c) = Some (STemps a b) -> has_curve c sat b.
