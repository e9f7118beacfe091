From Coq Require Import String.
From Verif Require Import Base PyStr FileListModel ProdModel AeroModel AeroSpec AeroProofs RafModel RafSpec RafProofs WhModel WhSpec WhProofs.
From Coq Require Import List Ascii ZArith Lia Bool.
Import ListNotations.
Open Scope string_scope. Open Scope list_scope. Open Scope nat_scope. Notation length := List.length.

(** *** model runs *)
Lemma Forall_iff {A} (P Q : A -> Prop) l : (forall x, P x <-> Q x) -> (Forall P l <-> Forall Q l).
Proof. intros H. split; apply Forall_impl; intros a; apply H. Qed.
Lemma letter_b : forallb (fun c => Bool.eqb (any_case (range "a" "z") c) ((97 <=? nat_of_ascii (lower_char c)) && (nat_of_ascii (lower_char c) <=? 122))) all_chars = true.
Proof. vm_compute. reflexivity. Qed.
Lemma letter_iff c : any_case (fun d => false || range "a" "z" d) c = true <-> letter c.
Proof.
  pose proof (for_all _ letter_b c) as H. cbv beta in H. apply Bool.eqb_prop in H. change (any_case (fun d => false || range "a" "z" d) c) with (any_case (range "a" "z") c). rewrite H.
  unfold letter. rewrite andb_true_iff, !Nat.leb_le. tauto.
Qed.
Definition sep_p := any_case (fun d => (false || is "." d) || is "_" d).
Lemma sep_b : forallb (fun c => Bool.eqb (sep_p c) (is "." c || is "_" c)) all_chars = true.
Proof. vm_compute. reflexivity. Qed.
Lemma sep_iff c : sep_p c = true <-> c = "."%char \/ c = "_"%char.
Proof. pose proof (for_all _ sep_b c) as H. cbv beta in H. apply Bool.eqb_prop in H. rewrite H, orb_true_iff, !is_iff. intuition congruence. Qed.
Definition stream_p := any_case (fun d => (((false || is "p" d) || is "a" d) || is "m" d) || is "d" d).
Lemma stream_b : forallb (fun c => Bool.eqb (stream_p c) (existsb (fun d => is d (lower_char c)) ["p"; "a"; "m"; "d"]%char)) all_chars = true.
Proof. vm_compute. reflexivity. Qed.
Lemma stream_iff c : stream_p c = true <-> In (lower_char c) ["p"; "a"; "m"; "d"]%char.
Proof.
  pose proof (for_all _ stream_b c) as H. cbv beta in H. apply Bool.eqb_prop in H. rewrite H, existsb_exists. split; [intros (d & I & E); apply is_iff in E; congruence|intros I; exists (lower_char c); split; [exact I|apply is_iff; reflexivity]].
Qed.
Definition digit_p := any_case (fun d => false || range "0" "9" d).
Lemma digit_b : forallb (fun c => Bool.eqb (digit_p c) ((48 <=? nat_of_ascii c) && (nat_of_ascii c <=? 57))) all_chars = true.
Proof. vm_compute. reflexivity. Qed.
Lemma digit_iff c : digit_p c = true <-> numeral c.
Proof. pose proof (for_all _ digit_b c) as H. cbv beta in H. apply Bool.eqb_prop in H. rewrite H. unfold numeral. rewrite andb_true_iff, !Nat.leb_le. tauto. Qed.
Lemma run_regex : regex (lit "[a-z]{6}[\._][pamd]{2}[0-9]{4,6}.*\.nc" ++ lit "$") =
  [Rep 6 (Some 0) (any_case (fun d => false || range "a" "z" d)); Rep 1 (Some 0) sep_p; Rep 2 (Some 0) stream_p; Rep 4 (Some 2) digit_p] ++ Rep 0 None dot :: lits (lit ".nc") ++ [End].
Proof. reflexivity. Qed.
Lemma run_matches s : one_line s -> (re_match (lit "[a-z]{6}[\._][pamd]{2}[0-9]{4,6}.*\.nc" ++ lit "$") s = true <-> model_run s).
Proof.
  intros L. unfold re_match. rewrite run_regex. cbn [app]. rewrite exactly. unfold model_run. split.
  - intros (run & v & -> & L1 & F1 & H). apply exactly in H. destruct H as (se & v1 & -> & L2 & F2 & H). destruct se as [|sep [|? ?]]; try discriminate. apply exactly in H.
    destruct H as (st & v2 & -> & L3 & F3 & H). cbn [matches] in H. apply at_least_iff in H. destruct H as (da & v3 & -> & L4 & F4 & H). apply (up_to_iff (Rep 0 None dot :: lits (lit ".nc") ++ [End])) in H. destruct H as (more & v4 & -> & _ & _ & H).
    assert (L' : one_line v4) by (repeat (apply one_line_app in L; destruct L as [_ L]); exact L).
    apply (ends_matches ".nc" v4 L') in H. destruct H as (u & x & -> & S1).
    exists run, sep, st, da, (more ++ u ++ x). split; [reflexivity|]. split; [exact L1|]. split; [revert F1; apply Forall_impl; intros c0; apply letter_iff|]. split; [inversion F2; subst; apply sep_iff; assumption|].
    split; [exact L3|]. split; [revert F3; apply Forall_impl; intros c0; apply stream_iff|]. split; [exact L4|]. split; [revert F4; apply Forall_impl; intros c0; apply digit_iff|]. exists (more ++ u), x. rewrite <- app_assoc. auto.
  - intros (run & sep & st & da & rest & -> & L1 & F1 & S2 & L3 & F3 & L4 & F4 & H). exists run, (sep :: st ++ da ++ rest). split; [reflexivity|]. split; [exact L1|]. split; [revert F1; apply Forall_impl; intros c0; apply letter_iff|].
    apply exactly. exists [sep], (st ++ da ++ rest). split; [reflexivity|]. split; [reflexivity|]. split; [constructor; [apply sep_iff; exact S2|constructor]|].
    apply exactly. exists st, (da ++ rest). split; [reflexivity|]. split; [exact L3|]. split; [revert F3; apply Forall_impl; intros c0; apply stream_iff|].
    cbn [matches]. apply at_least_iff. exists da, rest. split; [reflexivity|]. split; [exact L4|]. split; [revert F4; apply Forall_impl; intros c0; apply digit_iff|].
    apply (up_to_iff (Rep 0 None dot :: lits (lit ".nc") ++ [End])). exists [], rest. split; [reflexivity|]. split; [cbn; lia|]. split; [constructor|]. apply (ends_matches ".nc" rest); [|exact H].
    apply one_line_app in L. destruct L as [_ L]. apply one_line_cons in L. repeat (apply one_line_app in L; destruct L as [_ L]). exact L.
Qed.

(** *** the signatures *)
Definition signed (c : pclass) (b : str) : Prop := exists p, In p (c_signature c) /\ re_match (p ++ lit "$") b = true.
Definition good (c : pclass) (P : str -> Prop) : Prop := forall b, one_line b -> (signed c b <-> P b).
(** one pattern, written as tokens *)
Definition means (p : String.string) (P : str -> Prop) : Prop := forall b, one_line b -> (re_match (lit p ++ lit "$") b = true <-> P b).
Lemma m_ends p e : regex (lit p ++ lit "$") = Rep 0 None dot :: lits (lit e) ++ [End] -> means p (ends_in e).
Proof. intros E b L. unfold re_match. rewrite E. apply ends_matches. exact L. Qed.
Lemma m_mentions_ends p w e : regex (lit p ++ lit "$") = Rep 0 None dot :: lits (lit w) ++ Rep 0 None dot :: lits (lit e) ++ [End] -> means p (mentions_and_ends w e).
Proof. intros E b L. unfold re_match. rewrite E. apply mentions_ends_matches. exact L. Qed.
Lemma m_begins_ends p w e : regex (lit p ++ lit "$") = lits (lit w) ++ Rep 0 None dot :: lits (lit e) ++ [End] -> means p (begins_and_ends w e).
Proof. intros E b L. unfold re_match. rewrite E. apply begins_ends_matches. exact L. Qed.
Lemma m_mentions p w : regex (lit p ++ lit "$") = Rep 0 None dot :: lits (lit w) ++ [Rep 0 None dot; End] -> means p (mentions w).
Proof. intros E b L. unfold re_match. rewrite E. apply mentions_matches. exact L. Qed.
Lemma m_later p w e : regex (lit p ++ lit "$") = Rep 0 None dot :: lits (lit w) ++ Rep 0 None dot :: Rep 1 (Some 0) dot :: lits (lit e) ++ [End] -> means p (mentions_and_ends_later w e).
Proof. intros E b L. unfold re_match. rewrite E. apply later_matches. exact L. Qed.
Lemma m_raf : means ".*\.nc$" (ends_in ".nc").
Proof.
  intros b L. unfold re_match. change (regex (lit ".*\.nc$" ++ lit "$")) with (Rep 0 None dot :: lits (lit ".nc") ++ [End; End]). rewrite has_matches by exact L. unfold ends_in. split.
  - intros (u & x & v & -> & S1 & H). apply end_iff in H; [|exact (one_line_mid _ _ _ L)]. destruct H as [-> _]. exists u, x. rewrite app_nil_r. auto.
  - intros (u & x & -> & S1). exists u, x, []. rewrite app_nil_r. auto.
Qed.
Lemma m_cloudsat : means ".*_CS_.*GRANULE.*\.hdf" (fun s => exists u x v, s = u ++ x ++ v /\ same x (lit "_CS_") /\ mentions_and_ends "GRANULE" ".hdf" v).
Proof.
  intros b L. unfold re_match. change (regex (lit ".*_CS_.*GRANULE.*\.hdf" ++ lit "$")) with (Rep 0 None dot :: lits (lit "_CS_") ++ Rep 0 None dot :: lits (lit "GRANULE") ++ Rep 0 None dot :: lits (lit ".hdf") ++ [End]).
  rewrite has_matches by exact L. split; intros (u & x & v & -> & S1 & H); exists u, x, v; (split; [reflexivity|]); (split; [exact S1|]); apply (mentions_ends_matches "GRANULE" ".hdf" v (one_line_mid _ _ _ L)); exact H.
Qed.
Lemma m_run : means "[a-z]{6}[\._][pamd]{2}[0-9]{4,6}.*\.nc" model_run.
Proof. intros b L. apply run_matches. exact L. Qed.
(** several patterns *)
Lemma good_all i name pr (l : list (String.string * (str -> Prop))) : Forall (fun e => means (fst e) (snd e)) l -> good (product i name pr (map fst l)) (fun b => exists e, In e l /\ snd e b).
Proof.
  intros F b L. unfold signed. cbn [product c_signature]. rewrite Forall_forall in F. split.
  - intros (p & I & M). apply in_map_iff in I. destruct I as (p0 & <- & I). apply in_map_iff in I. destruct I as (e & <- & I). exists e. split; [exact I|]. apply (F e I b L). exact M.
  - intros (e & I & P). exists (lit (fst e)). split; [apply in_map, in_map; exact I|]. apply (F e I b L). exact P.
Qed.
Lemma good_one i name pr p P : means p P -> good (product i name pr [p]) P.
Proof.
  intros M b L. rewrite (good_all i name pr [(p, P)] ltac:(constructor; [exact M|constructor]) b L). cbn [In]. split; [intros (e & [<-|[]] & H); exact H|intros H; exists (p, P); split; [left; reflexivity|exact H]].
Qed.
Lemma good_many i name pr (pat : String.string -> String.string) (P : String.string -> str -> Prop) ws : (forall w, In w ws -> means (pat w) (P w)) ->
  good (product i name pr (map pat ws)) (fun b => one_of (fun w => P w b) ws).
Proof.
  intros M b L. pose proof (good_all i name pr (map (fun w => (pat w, P w)) ws)) as G. rewrite map_map in G. cbn [fst] in G. rewrite (G ltac:(rewrite Forall_forall; intros e I; apply in_map_iff in I; destruct I as (w & <- & I); exact (M w I)) b L).
  unfold one_of. split; [intros (e & I & H); apply in_map_iff in I; destruct I as (w & <- & I); exists w; auto|intros (w & I & H); exists (pat w, P w); split; [apply in_map_iff; exists w; auto|exact H]].
Qed.
Ltac each := intros w I; cbn [In] in I; repeat (destruct I as [<-|I]; [|]); [..|destruct I].
Lemma good_modis2 : good p_modis2 (fun s => one_of (fun w => mentions_and_ends w ".hdf" s) ["MYD06_L2"; "MOD06_L2"; "MYD04_L2"; "MOD04_L2"]).
Proof. refine (good_many 7 "MODIS_L2" 10 (fun w => ".*" ++ w ++ ".*\.hdf")%string (fun w s => mentions_and_ends w ".hdf" s) ["MYD06_L2"; "MOD06_L2"; "MYD04_L2"; "MOD04_L2"] _). each. all: apply m_mentions_ends; reflexivity. Qed.
Lemma good_modis3 : good p_modis3 (fun s => one_of (fun w => mentions_and_ends w ".hdf" s) ["MYD08_D3"; "MOD08_D3"; "MYD08_M3"; "MOD08_M3"; "MOD08_E3"]).
Proof. refine (good_many 8 "MODIS_L3" 10 (fun w => ".*" ++ w ++ ".*\.hdf")%string (fun w s => mentions_and_ends w ".hdf" s) ["MYD08_D3"; "MOD08_D3"; "MYD08_M3"; "MOD08_M3"; "MOD08_E3"] _). each. all: apply m_mentions_ends; reflexivity. Qed.
Lemma good_earthcare : good p_earthcare (fun s => one_of (fun w => mentions_and_ends_later w "h5" s)
     ["ATL_CTH_2A"; "ATL_EBD_2A"; "ATL_FM__2A"; "ATL_ICE_2A"; "ATL_TC__2A"; "ATL_AER_2A"; "ATL_ALD_2A"; "MSI_AOT_2A"; "MSI_COP_2A"; "MSI_CM__2A"; "MSI_RGR_1C"; "ATL_NOM_1B"]).
Proof. refine (good_many 19 "EarthCARE_MSI_ATL" 10 (fun w => ".*" ++ w ++ ".*.h5")%string (fun w s => mentions_and_ends_later w "h5" s) ["ATL_CTH_2A"; "ATL_EBD_2A"; "ATL_FM__2A"; "ATL_ICE_2A"; "ATL_TC__2A"; "ATL_AER_2A"; "ATL_ALD_2A"; "MSI_AOT_2A"; "MSI_COP_2A"; "MSI_CM__2A"; "MSI_RGR_1C"; "ATL_NOM_1B"] _). each. all: apply m_later; reflexivity. Qed.
Lemma good_cloud3 : good p_cloud3 (fun s => one_of (fun w => mentions_and_ends w "nc" s) ["ESACCI-L3C_CLOUD"; "ESACCI-L3U_CLOUD"]).
Proof. refine (good_many 15 "Cloud_CCI_L3" 10 (fun w => ".*" ++ w ++ ".*nc")%string (fun w s => mentions_and_ends w "nc" s) ["ESACCI-L3C_CLOUD"; "ESACCI-L3U_CLOUD"] _). each. all: apply m_mentions_ends; reflexivity. Qed.
Lemma good_aeronet : good p_aeronet (fun s => one_of (fun e => ends_in e s) [".lev20"; ".ONEILL_lev20"; ".ONEILL_20"; ".lev15"; ".ONEILL_lev15"; ".ONEILL_15"; ".all"] \/ mentions_and_ends "All_Sites_Times" "dat" s).
Proof.
  intros b L. set (l := [(".*\.lev20", ends_in ".lev20"); (".*\.ONEILL_lev20", ends_in ".ONEILL_lev20"); (".*\.ONEILL_20", ends_in ".ONEILL_20"); (".*\.lev15", ends_in ".lev15");
    (".*\.ONEILL_lev15", ends_in ".ONEILL_lev15"); (".*\.ONEILL_15", ends_in ".ONEILL_15"); (".*All_Sites_Times.*dat", mentions_and_ends "All_Sites_Times" "dat"); (".*\.all", ends_in ".all")]).
  assert (F : Forall (fun e => means (fst e) (snd e)) l). { repeat (constructor; [cbn [fst snd]; first [apply m_ends; reflexivity|apply m_mentions_ends; reflexivity]|]). constructor. }
  change p_aeronet with (product 2 "Aeronet" 10 (map fst l)). rewrite (good_all 2 "Aeronet" 10 l F b L). unfold one_of. split.
  - intros (e & I & H). unfold l in I. cbn [In] in I. repeat (destruct I as [<-|I]); cbn [snd] in H; try (right; exact H); try destruct I; (left; eexists; split; [|exact H]; cbn [In]; tauto).
  - intros [(e & I & H)|H]; [|exists (".*All_Sites_Times.*dat", mentions_and_ends "All_Sites_Times" "dat"); split; [unfold l; cbn [In]; tauto|exact H]].
    cbn [In] in I. repeat (destruct I as [<-|I]); try destruct I; (eexists (_, ends_in _); split; [|exact H]; unfold l; cbn [In]; tauto).
Qed.

(** *** the table *)
Definition table : list (pclass * (String.string * (str -> Prop))) :=
  let n i := nth i naming ("", fun _ => False) in
  [(p_cis, n 0); (p_raf, n 1); (p_points, n 4); (p_aeronet, n 5); (p_aerosol2, n 13); (p_aerosol3, n 15); (p_caliop1, n 9); (p_caliop2, n 10); (p_caliop2np, n 11); (p_cloudsat, n 6); (p_cloud2, n 12);
   (p_cloud3, n 14); (p_earthcare, n 17); (p_convsh, n 16); (p_pp, n 3); (p_modis2, n 7); (p_modis3, n 8); (p_gridded, n 2)].
Lemma table_sorted : sorted_products = map fst table.
Proof. vm_compute. reflexivity. Qed.
Lemma table_names : map (fun e => c_name (fst e)) table = precedence.
Proof. vm_compute. reflexivity. Qed.
Lemma table_good : Forall (fun e => In (snd e) naming /\ c_name (fst e) = lit (fst (snd e)) /\ good (fst e) (snd (snd e))) table.
Proof.
  unfold table. cbn [naming nth].
  repeat (constructor; [cbn [fst snd]; split; [unfold naming; cbn [In]; tauto|]; split; [reflexivity|];
    first [exact good_modis2|exact good_modis3|exact good_earthcare|exact good_cloud3|exact good_aeronet|apply good_one; first [exact m_raf|exact m_cloudsat|exact m_run|apply m_ends; reflexivity|apply m_mentions_ends; reflexivity|apply m_begins_ends; reflexivity|apply m_mentions; reflexivity]]|]).
  constructor.
Qed.
Lemma naming_nodup : NoDup (map fst naming).
Proof. repeat constructor; cbn [In map fst]; intuition discriminate. Qed.
Lemma nodup_fst {A B} (l : list (A * B)) a b c : NoDup (map fst l) -> In (a, b) l -> In (a, c) l -> b = c.
Proof.
  induction l as [|[x y] l IH]; cbn [map fst In]; [contradiction|]. intros N. inversion N; subst. intros [E|I] [E'|I']; [congruence|..|auto].
  - injection E as -> ->. exfalso. apply H1. apply in_map_iff. exists (a, c). auto.
  - injection E' as -> ->. exfalso. apply H1. apply in_map_iff. exists (a, b). auto.
Qed.
Lemma called_iff c b : In c sorted_products -> one_line b -> (signed c b <-> called (c_name c) b).
Proof.
  rewrite table_sorted. intros I L. apply in_map_iff in I. destruct I as ([c' [n P]] & <- & I). pose proof table_good as G. rewrite Forall_forall in G. specialize (G _ I). cbn [fst snd] in *. destruct G as (N & E & G).
  rewrite (G b L). unfold called. split; [intros H; exists n, P; auto|]. intros (n' & P' & I' & E' & H). rewrite E in E'. apply lit_inj in E'. subst n'. rewrite (nodup_fst naming n P P' naming_nodup N I'). exact H.
Qed.
