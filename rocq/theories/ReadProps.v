(** Property C41: values read are the scaled valid raw values. *)
From Verif Require Import Base PyStr QBase UtilModel UtilSpec ReadModel ReadSpec ReadProofs.
From Coq Require Import Lqa.
Open Scope Q_scope.

(** netCDF: what the library gives without automatic masking ([nv_read var false]), masked outside the valid limits (judged before scaling) and scaled; valid_min and
    valid_max must be values of the variable's type. *)
Theorem C41_netcdf_partial : forall var out, array_ok (nv_read var false) ->
  (forall v, nv_valid_max var = Some (Some v) \/ nv_valid_min var = Some (Some v) -> of_type (nv_type var) v) ->
  (forall l, nv_valid_range var = Some l -> length l = 2%nat) ->
  nc_get_data var = Ok out ->
  reads (not_valid (nv_valid_max var) (nv_valid_min var) (match nv_valid_range var with Some l => pair_of l | None => None end))
    (fun q => q * num (nv_scale var) 1 + num (nv_offset var) 0) (nv_read var false) out.
Proof. exact nc_reads. Qed.
Print Assumptions C41_netcdf_partial.
(** it fails exactly for integer variables with a scale factor or an offset alone *)
Theorem C41_netcdf_fails : forall var, (exists e, nc_get_data var = Raises e) <-> is_int (nv_type var) = true /\ only_one_float (nv_scale var) (nv_offset var).
Proof. exact nc_error. Qed.
Print Assumptions C41_netcdf_fails.

Theorem C41_hdf_sd : forall t d fill range offset scale, exists out, sd_get_data t d fill range offset scale = Ok out /\
  reads (fun x => given fill (fun v => is_value v x) \/ given range (fun r => outside (fst r) (snd r) x)) (fun q => q * num scale 1 + num offset 0) (Plain d) out.
Proof. exact sd_reads. Qed.
Print Assumptions C41_hdf_sd.
(** vdata: masked, never scaled *)
Theorem C41_hdf_vd : forall d missing_values attr,
  reads (fun x => match missing_values with Some l => exists v, In (Some v) l /\ is_value v x | None => given attr (fun v => is_value v x) end) (fun q => q) (Plain d) (vd_get_data d missing_values attr).
Proof. exact vd_reads. Qed.
Print Assumptions C41_hdf_vd.
Theorem C41_modis : forall d fill range offset scale,
  reads (fun x => given fill (fun v => is_value v x) \/ given range (fun r => outside (fst r) (snd r) x)) (fun q => (q - or_default offset 0) * or_default scale 1) (Plain d) (modis_get_data d fill range offset scale).
Proof. exact modis_reads. Qed.
Print Assumptions C41_modis.
Theorem C41_caliop : forall d fillvalue format fill range offset scale, ~ or_default scale 1 == 0 ->
  reads (fun x => (exists v, caliop_fill fillvalue format fill v /\ is_value v x) \/ given (match range with Some l => pair_of l | None => None end) (fun r => outside (fst r) (snd r) x))
    (fun q => q / or_default scale 1 + or_default offset 0) (Plain d) (caliop_get_data d fillvalue format fill range offset scale).
Proof. exact caliop_reads'. Qed.
Print Assumptions C41_caliop.
(** the operator must not be written ">=" *)
Theorem C41_cloudsat_sds_partial : forall d fill missing missop range factor offset, ~ or_default factor 1 == 0 -> missop <> Some (lit ">="%string) ->
  reads (fun x => given fill (fun v => is_value v x) \/ given missing (fun v => given missop (fun op => exists q, x = Some q /\ compares op q v)) \/ given range (fun r => outside (fst r) (snd r) x))
    (fun q => (q - or_default offset 0) / or_default factor 1) (Plain d) (cloudsat_sds_get_data d fill missing missop range factor offset).
Proof. exact cloudsat_sds_reads. Qed.
Print Assumptions C41_cloudsat_sds_partial.
Theorem C41_cloudsat_vds : forall d missing range factor offset, ~ or_default factor 1 == 0 ->
  reads (fun x => given missing (fun v => is_value v x) \/ given range (fun r => outside (fst r) (snd r) x)) (fun q => (q - or_default offset 0) / or_default factor 1) (Plain d) (cloudsat_vds_get_data d missing range factor offset).
Proof. exact cloudsat_vds_reads. Qed.
Print Assumptions C41_cloudsat_vds.

(** The full statement fails: automatic masking is off when a netCDF variable is read, so its fill value is read as a value; a packed integer variable with a scale
    factor and no offset cannot be read; a valid_max beyond the variable's type wraps around and masks everything; CloudSat's ">=" masks nothing. *)
Definition int16 : dtype := DInt true 16.
Definition filled : nc_var := mkVar (nc_getitem [Some 1; Some (-(999))] [-(999)]) DFloat None None None None None.
Definition packed : nc_var := mkVar (nc_getitem [Some 1; Some 2] []) int16 None None None None (Some (mkNum (1#10) true)).
Definition unsigned : nc_var := mkVar (nc_getitem [Some 1; Some 2] []) int16 (Some (Some 65535)) None None None None.
Theorem C41_refuted :
  (nv_read filled true = Masked [Some 1; Some (-(999))] (Some [false; true]) /\ nc_get_data filled = Ok (Plain [Some 1; Some (-(999))])) /\
  nc_get_data packed = Raises TypeError /\
  nc_get_data unsigned = Ok (Masked [Some 1; Some 2] (Some [true; true])) /\
  cloudsat_sds_get_data [Some 3; Some 5] None (Some 4) (Some (lit ">="%string)) None None None = Plain [Some 3; Some 5].
Proof. repeat split. Qed.
Print Assumptions C41_refuted.

Definition scaled : nc_var := mkVar (nc_getitem [Some 1; Some 2; Some 30; None] []) int16 (Some (Some 20)) (Some (Some 2)) (Some [50; 0]) (Some (mkNum 1 true)) (Some (mkNum (1#2) true)).
Example C41_example : (forall v, nv_valid_max scaled = Some (Some v) \/ nv_valid_min scaled = Some (Some v) -> of_type (nv_type scaled) v) /\
  (forall l, nv_valid_range scaled = Some l -> length l = 2%nat) /\ array_ok (nv_read scaled false) /\
  exists out, nc_get_data scaled = Ok out /\ getmaskarray out = [true; false; true; false] /\ exists q, nth_error (an_data out) 1 = Some (Some q) /\ q == 2.
Proof.
  split; [intros v [[= <-]|[= <-]]; [exists 20%Z|exists 2%Z]; split; try reflexivity; lia|]. split; [intros l [= <-]; reflexivity|]. split; [exact I|].
  eexists. split; [reflexivity|]. split; [reflexivity|]. eexists. split; [reflexivity|]. reflexivity.
Qed.
Example C41_caliop_example : caliop_fill None (Some (lit "Int_16"%string)) (Some (Some 5)) (Some (-(9999))) /\
  caliop_get_data [Some 10; Some (-(9999)); Some 70] None (Some (lit "Int_16"%string)) (Some (Some 5)) (Some [0; 50]) None (Some 2) = Masked [Some (10 / 2 + 0); Some (-(9999) / 2 + 0); Some (70 / 2 + 0)] (Some [false; true; true]).
Proof. split; [|reflexivity]. right. left. split; [reflexivity|]. eexists _, _. split; [reflexivity|]. split; [cbn; auto|reflexivity]. Qed.
