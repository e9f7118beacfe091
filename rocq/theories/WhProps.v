(** C96: which product reads a file, and the format of a file. *)
From Coq Require Import String.
From Verif Require Import Base PyStr FileListModel ProdModel AeroModel AeroSpec RafModel RafSpec WhModel WhSpec WhProofs Wh2Proofs Wh3Proofs.
From Coq Require Import List Ascii ZArith.
Import ListNotations.
Open Scope string_scope. Open Scope list_scope. Open Scope nat_scope. Notation length := List.length.

(** *** names *)
(** the signatures of the products describe the names of their files *)
Theorem C96_signature c b : In c sorted_products -> one_line b -> ((exists p, In p (c_signature c) /\ re_match (p ++ lit "$") b = true) <-> called (c_name c) b).
Proof. exact (called_iff c b). Qed.
Print Assumptions C96_signature.
Theorem C96_order : map c_name sorted_products = precedence.
Proof. exact names_sorted. Qed.
Print Assumptions C96_order.

(** *** the product of a file: of those whose names and contents fit, the first in the order of precedence *)
Theorem C96_product W show f n : one_line (basename f) -> openable W f -> (get_class W show f None = Ok n <-> chosen W f n).
Proof. exact (product_iff W show f n). Qed.
Print Assumptions C96_product.
Theorem C96_none W show f : one_line (basename f) -> openable W f -> (get_class W show f None = Raises ClassNotFoundError <-> forall n, ~ fits W f n).
Proof. exact (no_product W show f). Qed.
Print Assumptions C96_none.
Theorem C96_only_error W show f e : one_line (basename f) -> openable W f -> get_class W show f None = Raises e -> e = ClassNotFoundError.
Proof. exact (only_error W show f e). Qed.
Print Assumptions C96_only_error.
(** files that CIS wrote are read as such, whatever else their names suggest; and every NetCDF file is read by something *)
Theorem C96_cis_files W show f : one_line (basename f) -> ends_in ".nc" (basename f) -> by_cis W f -> get_class W show f None = Ok (lit "cis").
Proof. exact (saved_by_cis W show f). Qed.
Print Assumptions C96_cis_files.
Theorem C96_netcdf W show f : one_line (basename f) -> openable W f -> ends_in ".nc" (basename f) -> exists n, get_class W show f None = Ok n.
Proof. exact (netcdf_always W show f). Qed.
Print Assumptions C96_netcdf.
(** the CALIOP product without pressures is for those who name it *)
Theorem C96_no_pressure W show f : one_line (basename f) -> openable W f -> get_class W show f None <> Ok (lit "Caliop_L2_NO_PRESSURE").
Proof. exact (never_no_pressure W show f). Qed.
Print Assumptions C96_no_pressure.
(** a named product is taken, whatever the file; a name that is none is an error *)
Theorem C96_named W show f p n : get_class W show f (Some p) = Ok n <-> n = p /\ In p precedence.
Proof. exact (named W show f p n). Qed.
Print Assumptions C96_named.
Theorem C96_named_error W show f p e : get_class W show f (Some p) = Raises e -> e = ClassNotFoundError.
Proof. exact (named_error W show f p e). Qed.
Print Assumptions C96_named_error.

(** it fails: NetCDF files that cannot be opened, or whose source is not a text, stop the search even if another product reads files of that name *)
Theorem C96_unreadable W show f : one_line (basename f) -> ends_in ".nc" (basename f) -> f_attributes (W f) = None -> get_class W show f None = Raises OSError.
Proof. exact (unreadable W show f). Qed.
Print Assumptions C96_unreadable.
Theorem C96_source W show f l q : one_line (basename f) -> ends_in ".nc" (basename f) -> f_attributes (W f) = Some l -> dict_get l (lit "source") = Some (Num q) -> get_class W show f None = Raises AttributeError.
Proof. exact (numeric_source W show f l q). Qed.
Print Assumptions C96_source.

Definition shown (a : attr) : str := match a with Txt s => s | Num _ => lit "1.0" end.
Definition disk (f : str) : file :=
  if str_eqb f (lit "/d/out.nc") then mkFileInfo true (Some [(lit "source", Txt (lit "CIS1.7.9")); (lit "Conventions", Txt (lit "NCAR-RAF/nimbus"))]) []
  else if str_eqb f (lit "/d/flight.nc") then mkFileInfo true (Some [(lit "conventions", Txt (lit "NCAR-RAF/nimbus")); (lit "ConventionsVersion", Txt (lit "1.3"))]) []
  else if str_eqb f (lit "/d/numeric.nc") then mkFileInfo true (Some [(lit "source", Num (QArith_base.Qmake 4 1))]) []
  else if str_eqb f (lit "/d/broken.nc") then mkFileInfo true None []
  else if str_eqb f (lit "/d/920801_Cape.lev20") then mkFileInfo true None [lit "AERONET Version 3; x"; lit "Cape"]
  else mkFileInfo true (Some []) [].
Theorem C96_product_refuted : exists W show f n, one_line (basename f) /\ chosen W f n /\ get_class W show f None <> Ok n.
Proof.
  exists disk, shown, (lit "/d/numeric.nc"), (lit "NetCDF_Gridded"). split; [intros I; vm_compute in I; intuition discriminate|]. split; [|vm_compute; discriminate].
  set (others := fun f => if str_eqb f (lit "/d/numeric.nc") then mkFileInfo true (Some []) [] else disk f).
  assert (C : chosen others (lit "/d/numeric.nc") (lit "NetCDF_Gridded")). { apply (proj1 (C96_product others shown (lit "/d/numeric.nc") (lit "NetCDF_Gridded") ltac:(intros I; vm_compute in I; intuition discriminate) ltac:(intros _; exists []; split; [reflexivity|discriminate]))). vm_compute. reflexivity. }
  destruct C as (b & a & E & F & N). exists b, a. split; [exact E|].
  assert (K : forall n, fits disk (lit "/d/numeric.nc") n <-> fits others (lit "/d/numeric.nc") n).
  { intros n. assert (B1 : ~ by_cis disk (lit "/d/numeric.nc")) by (intros (l & r & A & D); vm_compute in A; injection A as <-; vm_compute in D; discriminate).
    assert (B2 : ~ by_cis others (lit "/d/numeric.nc")) by (intros (l & r & A & D); vm_compute in A; injection A as <-; vm_compute in D; discriminate).
    assert (R1 : ~ by_raf disk (lit "/d/numeric.nc")) by (intros (_ & l & A & D); vm_compute in A; injection A as <-; vm_compute in D; destruct D; congruence).
    assert (R2 : ~ by_raf others (lit "/d/numeric.nc")) by (intros (_ & l & A & D); vm_compute in A; injection A as <-; vm_compute in D; destruct D; congruence).
    unfold fits, accepted. tauto. }
  split; [apply K; exact F|]. intros p I H. apply (N p I). apply K. exact H.
Qed.
Print Assumptions C96_product_refuted.
Example C96_product_ex : map (fun f => get_class disk shown (lit f) None)
  ["/d/out.nc"; "/d/flight.nc"; "/d/grid.NC"; "/d/xglnwa.pm2008.nc"; "/d/20080620072500-ESACCI-L2P_AEROSOL-ALL.nc"; "/d/a.hdf"; "/d/CAL_LID_L2_05kmAPro-V3.hdf"; "/d/x.h5"; "/d/MSI_CM__2A.h5"; "/d/MSI_CM__2A_h5"; "/d/broken.nc"; "/d/numeric.nc"; "/d/MOD04_L2.A2010001.hdf"; "/d/a.nc/b.txt"] =
  [Ok (lit "cis"); Ok (lit "NCAR_NetCDF_RAF"); Ok (lit "NetCDF_Gridded"); Ok (lit "HadGEM_CONVSH"); Ok (lit "Aerosol_CCI_L2"); Raises ClassNotFoundError; Ok (lit "Caliop_L2"); Raises ClassNotFoundError; Ok (lit "EarthCARE_MSI_ATL"); Ok (lit "EarthCARE_MSI_ATL");
   Raises OSError; Raises AttributeError; Ok (lit "MODIS_L2"); Ok (lit "ASCII_Hyperpoints")].
Proof. vm_compute. reflexivity. Qed.

(** *** formats *)
(** the format is that of the product, of the attributes or of the first lines of the file; the coordinates of all the files must be readable *)
Theorem C96_format W show coords files product t :
  get_file_format W show coords files product = Format t <-> exists f rest n, files = f :: rest /\ get_class W show f product = Ok n /\ has_format W show f n t /\ coords n files = true.
Proof. exact (file_format_iff W show coords files product t). Qed.
Print Assumptions C96_format.
Theorem C96_no_coordinates W show coords f rest product n t : get_class W show f product = Ok n -> has_format W show f n t -> coords n (f :: rest) = false -> get_file_format W show coords (f :: rest) product = NoCoordinates.
Proof. exact (no_coordinates W show coords f rest product n t). Qed.
Print Assumptions C96_no_coordinates.
Theorem C96_no_format W show coords f rest product n : get_class W show f product = Ok n -> (forall t, ~ has_format W show f n t) -> get_file_format W show coords (f :: rest) product = PluginError.
Proof. exact (no_format W show coords f rest product n). Qed.
Print Assumptions C96_no_format.
(** it is a hierarchy parent/format; but not for Aeronet *)
Theorem C96_hierarchy_partial W show n f t : n <> lit "Aeronet" -> has_format W show f n t -> hierarchical t.
Proof. exact (hierarchy W show n f t). Qed.
Print Assumptions C96_hierarchy_partial.
Theorem C96_hierarchy_refuted : exists W show f t, get_file_format W show (fun _ _ => true) [f] None = Format t /\ ~ hierarchical t.
Proof.
  exists disk, shown, (lit "/d/920801_Cape.lev20"), (lit "ASCIIAERONET/3"). split; [vm_compute; reflexivity|]. intros (p & rest & I & E). apply in_map_iff in I. destruct I as (w & <- & I). cbn [In] in I.
  repeat (destruct I as [<-|I]; [vm_compute in E; discriminate|]). destruct I.
Qed.
Print Assumptions C96_hierarchy_refuted.
Example C96_format_ex : get_file_format disk shown (fun _ _ => true) [lit "/d/flight.nc"] None = Format (lit "NetCDF/NCAR-RAF/nimbus/1.3") /\ get_file_format disk shown (fun _ _ => true) [lit "/d/grid.nc"] (Some (lit "NCAR_NetCDF_RAF")) = PluginError /\
  get_file_format disk shown (fun _ _ => false) [lit "/d/grid.nc"] None = NoCoordinates.
Proof. vm_compute. auto. Qed.
Theorem C96_full_name W show version files product t :
  get_product_full_name W show version files product = Ok t <-> exists f rest n, files = f :: rest /\ get_class W show f product = Ok n /\ t = lit "CIS/" ++ n ++ lit "/" ++ version.
Proof. exact (full_name_iff W show version files product t). Qed.
Print Assumptions C96_full_name.
