(** The values of Aeronet files: cis/data_io/aeronet.py:7-8, 127-214 and the product Aeronet, cis/data_io/products/products.py:77-139.  The names of the columns: AeroModel.v. *)
From Coq Require Import String.
From Verif Require Import Base PyStr QBase DateModel FileListModel AeroModel ProdModel UngrModel RafModel HdfModel.
From Coq Require Import List Ascii.
Import ListNotations.
Open Scope string_scope. Open Scope list_scope. Open Scope nat_scope. Notation length := List.length.

(** pandas' own texts for a missing value (contract; 'N/A', the marker of version 2, is one of them) *)
Definition na_texts : list str := map lit [""; "#N/A"; "#N/A N/A"; "#NA"; "-1.#IND"; "-1.#QNAN"; "-NaN"; "-nan"; "1.#IND"; "1.#QNAN"; "<NA>"; "N/A"; "NA"; "NULL"; "NaN"; "n/a"; "nan"; "null"]%string.
(** 7-8 *)
Definition na_numbers (v : version) : list Q := match v with Aeronet2 | AeronetSda2 => [] | Man2 => [-(999); -(10000)]%Q | _ => [-(999)]%Q end.
Definition is_man (v : version) : bool := match v with Man2 | ManSda2 => true | _ => false end.
Definition is_2 (v : version) : bool := match v with Aeronet2 | AeronetSda2 | Man2 | ManSda2 => true | _ => false end.
Definition isin (x : str) (l : list str) : bool := existsb (str_eqb x) l.
Fixpoint nodups (l : list str) : bool := match l with [] => true | x :: l => negb (isin x l) && nodups l end.

Section Sun.
(** float() of a text (None: ValueError); the standard time of a date and a time (pandas and cf_units; None: ValueError) *)
Variable float_of : str -> option Q.
Variable stamp : str -> str -> option Q.

(** pandas.read_csv as used in 166-173 (contract): lines of blanks are passed over before the header is counted; a line of fewer fields than columns ends with missing values,
    one with more is dropped; every name once; a text that is not a number raises ValueError *)
Definition blank_line (l : str) : bool := forallb is_blank l.
Definition records (v : version) (names : list str) (lines : list str) : list (list str) :=
  filter (fun r => length r <=? length names) (map (fun l => split_on "," (remove_char newline l)) (skipn (header_length v) (filter (fun l => negb (blank_line l)) lines))).
Fixpoint index_of (c : str) (names : list str) : nat := match names with [] => 0 | n :: names => if str_eqb c n then 0 else S (index_of c names) end.
Definition cell (names : list str) (c : str) (r : list str) : str := nth (index_of c names) r [].
Definition csv_number (v : version) (s : str) : res (option Q) :=
  if isin s na_texts then Ok None else match float_of s with Some q => Ok (if existsb (Qeq_bool q) (na_numbers v) then None else Some q) | None => Raises ValueError end.
(** 190-196: misc[2][i].split("=")[1] *)
Definition header_number (lines : list str) (i : nat) : res Q :=
  match nth_error lines 2 with
  | None => Raises IndexError
  | Some l => match nth_error (split_on "," (remove_char newline l)) i with
              | None => Raises IndexError
              | Some s => match split_on "=" s with _ :: b :: _ => match float_of b with Some q => Ok q | None => Raises ValueError end | _ => Raises IndexError end
              end
  end.
(** 145-198 *)
Definition load_aeronet (lines : list str) (variables : list str) : res (list (str * list (option Q))) :=
  bind (get_version lines) (fun v => bind (get_file_variables lines) (fun names =>
  match names with
  | [] => Ok []
  | _ =>
    let cols := filter (fun c => isin c names) [lit "date"; lit "time"; lit "latitude"; lit "longitude"; lit "altitude"] ++ variables in
    if negb (nodups names && forallb (fun c => isin c names) (lit "date" :: lit "time" :: cols)) then Raises InvalidVariableError else
    let recs := records v names lines in
    match map_res (fun c => bind (map_res (fun r => csv_number v (cell names c r)) recs) (fun l => Ok (c, l))) (nodup str_eq_dec (filter (fun c => negb (isin c [lit "date"; lit "time"])) cols)) with
    | Raises _ => Raises InvalidVariableError
    | Ok numbers =>
      match recs with
      | [] => Ok [(lit "datetime", []); (lit "latitude", []); (lit "longitude", []); (lit "altitude", [])]
      | _ =>
        bind (map_res (fun r => match stamp (cell names (lit "date") r) (cell names (lit "time") r) with Some t => Ok (Some t) | None => Raises ValueError end) recs) (fun ts =>
        let rawd := (lit "datetime", ts) :: numbers in
        let all (q : Q) := map (fun _ => Some q) recs in
        if is_man v then Ok (dict_set rawd (lit "altitude") (all 0%Q))
        else if is_2 v then
          bind (header_number lines 1) (fun lon => bind (header_number lines 2) (fun lat => bind (header_number lines 3) (fun alt =>
          Ok (dict_set (dict_set (dict_set rawd (lit "longitude") (all lon)) (lit "latitude") (all lat)) (lit "altitude") (all alt)))))
        else Ok rawd)
      end
    end
  end)).
(** 127-143 *)
Definition load_multiple_aeronet (files : list (list str)) (variables : list str) : res (list (str * list (option Q))) :=
  bind (map_res (fun lines => load_aeronet lines variables) files) (fun ds =>
  Ok (map (fun kv : str * list (list (option Q)) => (fst kv, concat (snd kv))) (fold_left add_all ds []))).
(** products.py:83-101 *)
Definition aeronet_coords (data : list (str * list (option Q))) : res (list coord) :=
  let a l : arr := ([length l], l) in
  bind (key data (lit "longitude")) (fun lo => bind (key data (lit "latitude")) (fun la => bind (key data (lit "altitude")) (fun al => bind (key data (lit "datetime")) (fun t =>
  append_all [] [named_coord (lit "Longitude") [] [] (a lo); named_coord (lit "Latitude") [] [] (a la); named_coord (lit "Altitude") [] [] (a al); time_coord (lit "DateTime") (lit "X") (a t)])))).
(** 106-124 *)
Definition aeronet_create (files : list (list str)) (variable : str) : res udata :=
  bind (load_multiple_aeronet files [variable]) (fun data => bind (aeronet_coords data) (fun cs => bind (key data variable) (fun l => Ok (mkU cs [length l] l)))).
Definition read_aeronet (files : list (list str)) (variable : str) : res udata := bind (aeronet_create files variable) post_process.
End Sun.
(** 126-133: a set of names *)
Definition aeronet_names (files : list (list str)) : res (list str) := bind (map_res get_file_variables files) (fun ls => Ok (concat ls)).
