(** Which product reads a file, and the format of a file: the signatures, priorities and checks of CIS' own products (cis/data_io/products), __get_class, get_file_format and
    get_product_full_name (cis/data_io/products/AProduct.py:135-183, 253-292), get_aeronet_version (cis/data_io/aeronet.py:46-69) and _get_file_format of NCAR_NetCDF_RAF.py:322-354.
    No plugins here (C43).  Names are ASCII texts. *)
From Coq Require Import String.
From Verif Require Import Base PyStr FileListModel ProdModel AeroModel RafModel.
From Coq Require Import List Ascii ZArith.
Import ListNotations.
Open Scope string_scope. Open Scope list_scope. Open Scope nat_scope. Notation length := List.length.

(** *** re.match with re.I (library contract), for the expressions of the signatures: characters, ., classes, backslash, *, {m}, {m,n} and $; only whether there is a match *)
Inductive tok := Rep (least : nat) (more : option nat) (p : ascii -> bool) | End.
Fixpoint at_least (n : nat) (p : ascii -> bool) (s : str) (k : str -> bool) : bool :=
  match n with 0 => k s | S n => match s with c :: s => p c && at_least n p s k | [] => false end end.
Fixpoint up_to (n : nat) (p : ascii -> bool) (s : str) (k : str -> bool) : bool :=
  k s || match n, s with S n, c :: s => p c && up_to n p s k | _, _ => false end.
Fixpoint star (p : ascii -> bool) (s : str) (k : str -> bool) : bool := k s || match s with c :: s => p c && star p s k | [] => false end.
Definition newline : ascii := "010"%char.
Fixpoint matches (ts : list tok) (s : str) : bool :=
  match ts with
  | [] => true
  | End :: ts => match s with [] => true | [c] => if ascii_dec c newline then true else false | _ => false end && matches ts s
  | Rep n more p :: ts => at_least n p s (fun s => match more with Some m => up_to m p s (matches ts) | None => star p s (matches ts) end)
  end.
Definition is (c : ascii) (d : ascii) : bool := if ascii_dec c d then true else false.
Definition any_case (p : ascii -> bool) (c : ascii) : bool := p c || p (lower_char c) || p (upper_char c).
Definition dot (c : ascii) : bool := negb (is newline c).
Definition range (a b c : ascii) : bool := (nat_of_ascii a <=? nat_of_ascii c) && (nat_of_ascii c <=? nat_of_ascii b).
(** the inside of [ ] *)
Fixpoint class (fuel : nat) (s : str) (p : ascii -> bool) : option ((ascii -> bool) * str) :=
  match fuel with
  | 0 => None
  | S fuel => match s with
    | "]"%char :: s => Some (p, s)
    | "\"%char :: c :: s => class fuel s (fun d => p d || is c d)
    | a :: "-"%char :: b :: s => class fuel s (fun d => p d || range a b d)
    | c :: s => class fuel s (fun d => p d || is c d)
    | [] => None
    end
  end.
Definition digit (c : ascii) : option nat := let n := nat_of_ascii c in if (48 <=? n) && (n <=? 57) then Some (n - 48) else None.
(** what follows a character: how often; here one digit in { } *)
Definition times (s : str) : nat * option nat * str :=
  match s with
  | "*"%char :: s => (0, None, s)
  | "{"%char :: a :: "}"%char :: s => match digit a with Some n => (n, Some 0, s) | None => (1, Some 0, "{"%char :: a :: "}"%char :: s) end
  | "{"%char :: a :: ","%char :: b :: "}"%char :: s => match digit a, digit b with Some n, Some m => (n, Some (m - n), s) | _, _ => (1, Some 0, "{"%char :: a :: ","%char :: b :: "}"%char :: s) end
  | s => (1, Some 0, s)
  end.
Fixpoint parse (fuel : nat) (s : str) : option (list tok) :=
  match fuel with
  | 0 => None
  | S fuel =>
    let go p s := let '(n, m, s) := times s in match parse fuel s with Some ts => Some (Rep n m p :: ts) | None => None end in
    match s with
    | [] => Some []
    | "$"%char :: s => match parse fuel s with Some ts => Some (End :: ts) | None => None end
    | "."%char :: s => go dot s
    | "["%char :: s => match class (S (length s)) s (fun _ => false) with Some (p, s) => go (any_case p) s | None => None end
    | "\"%char :: c :: s => go (any_case (is c)) s
    | c :: s => go (any_case (is c)) s
    end
  end.
Definition regex (s : str) : list tok := match parse (S (length s)) s with Some ts => ts | None => [] end.
Definition re_match (pattern s : str) : bool := matches (regex pattern) s.

(** *** the products: class, priority, get_file_signature *)
Definition product (i : nat) (name : String.string) (priority : Z) (signature : list String.string) : pclass := mkClass i (lit name) priority true (map lit signature) (fun _ => false).
(** products.py:8-14, 80-84, 145-147 *)
Definition p_cis := product 1 "cis" 100 [".*\.nc"].
Definition p_aeronet := product 2 "Aeronet" 10 [".*\.lev20"; ".*\.ONEILL_lev20"; ".*\.ONEILL_20"; ".*\.lev15"; ".*\.ONEILL_lev15"; ".*\.ONEILL_15"; ".*All_Sites_Times.*dat"; ".*\.all"].
Definition p_points := product 3 "ASCII_Hyperpoints" 10 [".*\.txt"].
(** cloudsat.py:11-12; gridded_NetCDF.py:8-10; NCAR_NetCDF_RAF.py:293, 320 *)
Definition p_cloudsat := product 4 "CloudSat" 10 [".*_CS_.*GRANULE.*\.hdf"].
Definition p_gridded := product 5 "NetCDF_Gridded" 10 [".*\.nc"].
Definition p_raf := product 6 "NCAR_NetCDF_RAF" 20 [".*\.nc$"].
(** MODIS.py:102-105, 200-203 *)
Definition p_modis2 := product 7 "MODIS_L2" 10 [".*MYD06_L2.*\.hdf"; ".*MOD06_L2.*\.hdf"; ".*MYD04_L2.*\.hdf"; ".*MOD04_L2.*\.hdf"].
Definition p_modis3 := product 8 "MODIS_L3" 10 [".*MYD08_D3.*\.hdf"; ".*MOD08_D3.*\.hdf"; ".*MYD08_M3.*\.hdf"; ".*MOD08_M3.*\.hdf"; ".*MOD08_E3.*\.hdf"].
(** caliop.py:17-22, 232-233, 325-329 (inherited), 333-334 *)
Definition p_caliop := product 9 "abstract_Caliop" 10 [].
Definition p_caliop1 := product 10 "Caliop_L1" 10 ["CAL_LID_L1.*hdf"].
Definition p_caliop2 := product 11 "Caliop_L2" 10 ["CAL_LID_L2_05kmAPro.*hdf"].
Definition p_caliop2np := product 12 "Caliop_L2_NO_PRESSURE" 10 ["CAL_LID_L2_05kmAPro.*hdf"].
(** CCI.py:62-63, 78-79, 106-107, 135-136 *)
Definition p_cloud2 := product 13 "Cloud_CCI_L2" 10 [".*ESACCI-L2_CLOUD.*"].
Definition p_aerosol2 := product 14 "Aerosol_CCI_L2" 10 [".*ESACCI-L2P_AEROSOL.*"].
Definition p_cloud3 := product 15 "Cloud_CCI_L3" 10 [".*ESACCI-L3C_CLOUD.*nc"; ".*ESACCI-L3U_CLOUD.*nc"].
Definition p_aerosol3 := product 16 "Aerosol_CCI_L3" 10 [".*ESACCI-L3C_AEROSOL.*nc"].
(** HadGEM.py:11-12, 97-98; EarthCARE.py:75-83 *)
Definition p_convsh := product 17 "HadGEM_CONVSH" 10 ["[a-z]{6}[\._][pamd]{2}[0-9]{4,6}.*\.nc"].
Definition p_pp := product 18 "HadGEM_PP" 10 [".*\.pp"].
Definition p_earthcare := product 19 "EarthCARE_MSI_ATL" 10 [".*ATL_CTH_2A.*.h5"; ".*ATL_EBD_2A.*.h5"; ".*ATL_FM__2A.*.h5"; ".*ATL_ICE_2A.*.h5"; ".*ATL_TC__2A.*.h5"; ".*ATL_AER_2A.*.h5"; ".*ATL_ALD_2A.*.h5";
  ".*MSI_AOT_2A.*.h5"; ".*MSI_COP_2A.*.h5"; ".*MSI_CM__2A.*.h5"; ".*MSI_RGR_1C.*.h5"; ".*ATL_NOM_1B.*.h5"].
(** the classes below AProduct, in the order of their definition (products/__init__.py:5-14) *)
Definition products : ctree :=
  Node (mkClass 0 (lit "AProduct") 10 false [] (fun _ => false))
    [Node p_cis []; Node p_aeronet []; Node p_points []; Node p_cloudsat [];
     Node p_gridded [Node p_cloud3 []; Node p_aerosol3 []; Node p_convsh []; Node p_pp []];
     Node p_raf []; Node p_modis3 []; Node p_modis2 []; Node p_caliop [Node p_caliop2 [Node p_caliop2np []]; Node p_caliop1 []]; Node p_cloud2 []; Node p_aerosol2 []; Node p_earthcare []].
(** AProduct.py:156-157 *)
Definition sorted_products : list pclass := sort_by (fun a b => (c_priority b <=? c_priority a)%Z) (find_plugin_classes None products).

(** *** what is known about the files *)
Record file := mkFileInfo { f_isfile : bool; f_attributes : option (list (str * attr)) (* None: not readable as NetCDF *); f_lines : list str (* as text *) }.
Section World.
Variable W : str -> file.
Variable show : attr -> str.  (* "{}".format(value) *)
(** NCAR_NetCDF_RAF._get_file_format, 322-354 *)
Definition raf_format (f : str) : res str :=
  if negb (f_isfile (W f)) then Raises FileFormatError else
  match f_attributes (W f) with
  | None => Raises FileFormatError
  | Some l =>
    let a := mkFile l [] in
    match attr_of a (lit "GASSP_Version") with
    | Some v => Ok (lit "NetCDF/GASSP/" ++ show v)
    | None => match attr_of a (lit "Conventions") with
              | Some (Txt c) => if str_eqb c (lit "NCAR-RAF/nimbus")
                                then Ok (lit "NetCDF/" ++ c ++ match attr_of a (lit "ConventionsVersion") with Some v => lit "/" ++ show v | None => [] end)
                                else Raises FileFormatError
              | _ => Raises FileFormatError
              end
    end
  end.
(** get_file_type_error: is the file refused?  cis, products.py:61-77; NCAR_NetCDF_RAF 356-366; AProduct 116-133 *)
Definition refused (name f : str) : res bool :=
  if str_eqb name (lit "cis") then
    match f_attributes (W f) with
    | None => Raises OSError
    | Some l => match dict_get l (lit "source") with
                | None => Ok true
                | Some (Txt s) => Ok (negb (starts_with (lit "CIS") s))
                | Some (Num _) => Raises AttributeError
                end
    end
  else if str_eqb name (lit "NCAR_NetCDF_RAF") then match raf_format f with Ok _ => Ok false | Raises _ => Ok true end
  else Ok false.
(** __get_class, AProduct.py:159-183 *)
Fixpoint try_patterns (name f : str) (patterns : list str) : res bool :=
  match patterns with
  | [] => Ok false
  | p :: ps => if re_match (p ++ lit "$") (basename f) then bind (refused name f) (fun r => if r then try_patterns name f ps else Ok true) else try_patterns name f ps
  end.
Fixpoint search (f : str) (product : option str) (l : list pclass) : res str :=
  match l with
  | [] => Raises ClassNotFoundError
  | c :: l =>
    match product with
    | None => bind (try_patterns (c_name c) f (c_signature c)) (fun b => if b then Ok (c_name c) else search f product l)
    | Some p => if str_eqb p (c_name c) then Ok (c_name c) else search f product l
    end
  end.
Definition get_class (f : str) (product : option str) : res str := search f product sorted_products.

(** *** get_file_format of the products: products.py:58, 139, 199; cloudsat.py:289; gridded_NetCDF.py:96 (and HadGEM); NCAR_NetCDF_RAF.py:583; MODIS.py:193, 334; caliop.py:321, 352; CCI.py:69, 86, 109, 138;
    EarthCARE.py:85 *)
Definition fixed_formats : list (str * str) :=
  map (fun p => (lit (fst p), lit (snd p)))
    [("cis", "NetCDF/CIS"); ("ASCII_Hyperpoints", "ASCII/ASCIIHyperpoints"); ("CloudSat", "HDF4/CloudSat"); ("NetCDF_Gridded", "NetCDF/Gridded"); ("HadGEM_CONVSH", "NetCDF/Gridded"); ("HadGEM_PP", "NetCDF/Gridded");
     ("MODIS_L3", "HDF4/ModisL3"); ("MODIS_L2", "HDF4/ModisL2"); ("Caliop_L2", "HDF4/CaliopL2"); ("Caliop_L2_NO_PRESSURE", "HDF4/CaliopL2"); ("Caliop_L1", "HDF4/CaliopL1");
     ("Cloud_CCI_L2", "NetCDF/Cloud_CCI_L2"); ("Aerosol_CCI_L2", "NetCDF/Aerosol_CCI_L2"); ("Cloud_CCI_L3", "NetCDF/Cloud_CCI_L3"); ("Aerosol_CCI_L3", "NetCDF/Aerosol_CCI_L3");
     ("EarthCARE_MSI_ATL", "h5/NetCDF/EarthCARE_MSI_ATL")].
(** aeronet.py:59-66 *)
Definition version_name (v : version) : str :=
  match v with Aeronet2 => lit "AERONET/2" | AeronetSda2 => lit "AERONET-SDA/2" | Man2 => lit "MAN/2" | ManSda2 => lit "MAN-SDA/2" | Aeronet3 => lit "AERONET/3" | AeronetSda3 => lit "AERONET-SDA/3" end.
Definition product_format (name f : str) : res str :=
  if str_eqb name (lit "NCAR_NetCDF_RAF") then raf_format f
  else if str_eqb name (lit "Aeronet") then bind (get_version (f_lines (W f))) (fun v => Ok (lit "ASCII" ++ version_name v))
  else match dict_get fixed_formats name with Some t => Ok t | None => Ok name end.
(** get_file_format, AProduct.py:253-278.  [coords]: the products' create_coords on all the files: whether it succeeds.  The error for the product is ProductPluginException,
    here PluginError; exceptions without arguments (e.args[0]) are left out *)
Inductive answer := Format (t : str) | PluginError | NoCoordinates | Failed (e : exn).
Definition get_file_format (coords : str -> list str -> bool) (files : list str) (product : option str) : answer :=
  match files with
  | [] => Failed IndexError
  | f :: _ =>
    match get_class f product with
    | Raises e => Failed e
    | Ok c => match product_format c f with Raises _ => PluginError | Ok t => if coords c files then Format t else NoCoordinates end
    end
  end.
(** get_product_full_name, 281-292 *)
Definition get_product_full_name (version : str) (files : list str) (product : option str) : res str :=
  match files with [] => Raises IndexError | f :: _ => bind (get_class f product) (fun c => Ok (lit "CIS/" ++ c ++ lit "/" ++ version)) end.
End World.
