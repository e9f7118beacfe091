(** Specification for C96: the names and contents by which files are recognised. *)
From Coq Require Import String.
From Verif Require Import Base PyStr FileListModel ProdModel AeroModel AeroSpec RafModel RafSpec WhModel.
From Coq Require Import List Ascii ZArith.
Import ListNotations.
Open Scope string_scope. Open Scope list_scope. Open Scope nat_scope. Notation length := List.length.

(** *** names; capital letters or not *)
Definition one_line (s : str) : Prop := ~ In "010"%char s.
Definition same (a b : str) : Prop := lower a = lower b.
Definition ends_in (e : String.string) (s : str) : Prop := exists u x, s = u ++ x /\ same x (lit e).
Definition mentions (w : String.string) (s : str) : Prop := exists u x v, s = u ++ x ++ v /\ same x (lit w).
(** w somewhere, and after it, e at the end *)
Definition mentions_and_ends (w e : String.string) (s : str) : Prop := exists u x v, s = u ++ x ++ v /\ same x (lit w) /\ ends_in e v.
Definition begins_and_ends (w e : String.string) (s : str) : Prop := exists x v, s = x ++ v /\ same x (lit w) /\ ends_in e v.
(** at least one character between *)
Definition mentions_and_ends_later (w e : String.string) (s : str) : Prop := exists u x c v, s = u ++ x ++ c :: v /\ same x (lit w) /\ ends_in e v.
Definition one_of (P : String.string -> Prop) (l : list String.string) : Prop := exists w, In w l /\ P w.
(** six letters, a dot or a low line, two of the letters p a m d, at least four digits, and .nc at the end: abcdef.pm199801 ... .nc *)
Definition letter (c : ascii) : Prop := let n := nat_of_ascii (lower_char c) in 97 <= n <= 122.
Definition numeral (c : ascii) : Prop := 48 <= nat_of_ascii c <= 57.
Definition model_run (s : str) : Prop :=
  exists run sep stream date rest, s = run ++ sep :: stream ++ date ++ rest /\ length run = 6 /\ Forall letter run /\ (sep = "."%char \/ sep = "_"%char) /\
    length stream = 2 /\ Forall (fun c => In (lower_char c) ["p"; "a"; "m"; "d"]%char) stream /\ length date = 4 /\ Forall numeral date /\ ends_in ".nc" rest.
(** how the files of a product are called *)
Definition naming : list (String.string * (str -> Prop)) :=
  [("cis", ends_in ".nc"); ("NCAR_NetCDF_RAF", ends_in ".nc"); ("NetCDF_Gridded", ends_in ".nc"); ("HadGEM_PP", ends_in ".pp"); ("ASCII_Hyperpoints", ends_in ".txt");
   ("Aeronet", fun s => one_of (fun e => ends_in e s) [".lev20"; ".ONEILL_lev20"; ".ONEILL_20"; ".lev15"; ".ONEILL_lev15"; ".ONEILL_15"; ".all"] \/ mentions_and_ends "All_Sites_Times" "dat" s);
   ("CloudSat", fun s => exists u x v, s = u ++ x ++ v /\ same x (lit "_CS_") /\ mentions_and_ends "GRANULE" ".hdf" v);
   ("MODIS_L2", fun s => one_of (fun w => mentions_and_ends w ".hdf" s) ["MYD06_L2"; "MOD06_L2"; "MYD04_L2"; "MOD04_L2"]);
   ("MODIS_L3", fun s => one_of (fun w => mentions_and_ends w ".hdf" s) ["MYD08_D3"; "MOD08_D3"; "MYD08_M3"; "MOD08_M3"; "MOD08_E3"]);
   ("Caliop_L1", begins_and_ends "CAL_LID_L1" "hdf"); ("Caliop_L2", begins_and_ends "CAL_LID_L2_05kmAPro" "hdf"); ("Caliop_L2_NO_PRESSURE", begins_and_ends "CAL_LID_L2_05kmAPro" "hdf");
   ("Cloud_CCI_L2", mentions "ESACCI-L2_CLOUD"); ("Aerosol_CCI_L2", mentions "ESACCI-L2P_AEROSOL");
   ("Cloud_CCI_L3", fun s => one_of (fun w => mentions_and_ends w "nc" s) ["ESACCI-L3C_CLOUD"; "ESACCI-L3U_CLOUD"]); ("Aerosol_CCI_L3", mentions_and_ends "ESACCI-L3C_AEROSOL" "nc");
   ("HadGEM_CONVSH", model_run);
   ("EarthCARE_MSI_ATL", fun s => one_of (fun w => mentions_and_ends_later w "h5" s)
     ["ATL_CTH_2A"; "ATL_EBD_2A"; "ATL_FM__2A"; "ATL_ICE_2A"; "ATL_TC__2A"; "ATL_AER_2A"; "ATL_ALD_2A"; "MSI_AOT_2A"; "MSI_COP_2A"; "MSI_CM__2A"; "MSI_RGR_1C"; "ATL_NOM_1B"])].
Definition called (product basename : str) : Prop := exists n P, In (n, P) naming /\ product = lit n /\ P basename.
(** the order of precedence: by priority, then by name *)
Definition precedence : list str := map lit ["cis"; "NCAR_NetCDF_RAF"; "ASCII_Hyperpoints"; "Aeronet"; "Aerosol_CCI_L2"; "Aerosol_CCI_L3"; "Caliop_L1"; "Caliop_L2"; "Caliop_L2_NO_PRESSURE"; "CloudSat";
  "Cloud_CCI_L2"; "Cloud_CCI_L3"; "EarthCARE_MSI_ATL"; "HadGEM_CONVSH"; "HadGEM_PP"; "MODIS_L2"; "MODIS_L3"; "NetCDF_Gridded"].

(** *** contents *)
Section Spec.
Variable W : str -> file.
(** written by CIS *)
Definition by_cis (f : str) : Prop := exists l r, f_attributes (W f) = Some l /\ dict_get l (lit "source") = Some (Txt (lit "CIS" ++ r)).
(** of NCAR-RAF or GASSP *)
Definition by_raf (f : str) : Prop := f_isfile (W f) = true /\ exists l, f_attributes (W f) = Some l /\
  (attribute (mkFile l []) (lit "GASSP_Version") <> None \/ attribute (mkFile l []) (lit "Conventions") = Some (Txt (lit "NCAR-RAF/nimbus"))).
Definition accepted (product f : str) : Prop := (product = lit "cis" -> by_cis f) /\ (product = lit "NCAR_NetCDF_RAF" -> by_raf f).
Definition fits (f product : str) : Prop := In product precedence /\ called product (basename f) /\ accepted product f.
(** the first that fits *)
Definition chosen (f product : str) : Prop := exists before after, precedence = before ++ product :: after /\ fits f product /\ forall p, In p before -> ~ fits f p.
(** a NetCDF file can be opened, and its source, if any, is a text *)
Definition openable (f : str) : Prop := ends_in ".nc" (basename f) -> exists l, f_attributes (W f) = Some l /\ forall q, dict_get l (lit "source") <> Some (Num q).
End Spec.

(** *** formats *)
Definition formats : list (String.string * String.string) :=
  [("cis", "NetCDF/CIS"); ("NetCDF_Gridded", "NetCDF/Gridded"); ("HadGEM_CONVSH", "NetCDF/Gridded"); ("HadGEM_PP", "NetCDF/Gridded"); ("ASCII_Hyperpoints", "ASCII/ASCIIHyperpoints");
   ("CloudSat", "HDF4/CloudSat"); ("MODIS_L2", "HDF4/ModisL2"); ("MODIS_L3", "HDF4/ModisL3"); ("Caliop_L1", "HDF4/CaliopL1"); ("Caliop_L2", "HDF4/CaliopL2"); ("Caliop_L2_NO_PRESSURE", "HDF4/CaliopL2");
   ("Cloud_CCI_L2", "NetCDF/Cloud_CCI_L2"); ("Cloud_CCI_L3", "NetCDF/Cloud_CCI_L3"); ("Aerosol_CCI_L2", "NetCDF/Aerosol_CCI_L2"); ("Aerosol_CCI_L3", "NetCDF/Aerosol_CCI_L3");
   ("EarthCARE_MSI_ATL", "h5/NetCDF/EarthCARE_MSI_ATL")].
Inductive has_format (W : str -> file) (show : attr -> str) (f : str) : str -> str -> Prop :=
| fixed n t : In (n, t) formats -> has_format W show f (lit n) (lit t)
| gassp l v : f_isfile (W f) = true -> f_attributes (W f) = Some l -> attribute (mkFile l []) (lit "GASSP_Version") = Some v ->
    has_format W show f (lit "NCAR_NetCDF_RAF") (lit "NetCDF/GASSP/" ++ show v)
| raf l : f_isfile (W f) = true -> f_attributes (W f) = Some l -> attribute (mkFile l []) (lit "GASSP_Version") = None -> attribute (mkFile l []) (lit "Conventions") = Some (Txt (lit "NCAR-RAF/nimbus")) ->
    attribute (mkFile l []) (lit "ConventionsVersion") = None -> has_format W show f (lit "NCAR_NetCDF_RAF") (lit "NetCDF/NCAR-RAF/nimbus")
| raf_version l v : f_isfile (W f) = true -> f_attributes (W f) = Some l -> attribute (mkFile l []) (lit "GASSP_Version") = None ->
    attribute (mkFile l []) (lit "Conventions") = Some (Txt (lit "NCAR-RAF/nimbus")) -> attribute (mkFile l []) (lit "ConventionsVersion") = Some v ->
    has_format W show f (lit "NCAR_NetCDF_RAF") (lit "NetCDF/NCAR-RAF/nimbus/" ++ show v)
| aeronet v t : file_version (f_lines (W f)) v -> In (v, t) [(Aeronet2, "ASCIIAERONET/2"); (AeronetSda2, "ASCIIAERONET-SDA/2"); (Man2, "ASCIIMAN/2"); (ManSda2, "ASCIIMAN-SDA/2"); (Aeronet3, "ASCIIAERONET/3"); (AeronetSda3, "ASCIIAERONET-SDA/3")] ->
    has_format W show f (lit "Aeronet") (lit t).
(** what the documentation says: the format in the form of a hierarchy parent/format/version; its parent is a format of files *)
Definition hierarchical (t : str) : Prop := exists p rest, In p (map lit ["ASCII"; "NetCDF"; "HDF4"; "h5"]) /\ t = p ++ "/"%char :: rest.
