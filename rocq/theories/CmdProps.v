(** C52 (every collocated datagroup reaches the output), C61 (a command writes its whole result or nothing, and nothing else), C64 (missing sample points). *)
From Coq Require Import String.
From Verif Require Import Base PyStr ParseModel RdrModel EvalModel CmdModel CmdSpec CmdProofs.
From Coq Require Import List.
Import ListNotations.
Open Scope string_scope. Open Scope list_scope. Open Scope nat_scope. Notation length := List.length.

(** ** C61 *)
Theorem C61_subset : forall D S K (w : world D S K) gs limits out fs fs' e, sound fs -> subset_cmd w gs limits out fs = (fs', e) ->
  all_or_nothing w (group_data w fs gs (subset_result w limits)) out fs fs' e.
Proof. exact (@subset_all). Qed.
Print Assumptions C61_subset.
Theorem C61_aggregate : forall D S K (w : world D S K) gs grid out fs fs' e, sound fs -> aggregate_cmd w gs grid out fs = (fs', e) ->
  all_or_nothing w (group_data w fs gs (aggregate_result w grid)) out fs fs' e.
Proof. exact (@aggregate_all). Qed.
Print Assumptions C61_aggregate.
Theorem C61_collapse : forall D S K (w : world D S K) gs dims out fs fs' e, sound fs -> collapse_cmd w gs dims out fs = (fs', e) ->
  all_or_nothing w (group_data w fs gs (collapse_result w dims)) out fs fs' e.
Proof. exact (@collapse_all). Qed.
Print Assumptions C61_collapse.
Theorem C61_evaluate : forall D S K (w : world D S K) gs expr out fs fs' e, sound fs -> evaluate_cmd w gs expr out fs = (fs', e) ->
  all_or_nothing w (many_result w fs gs (fun ds => w_evaluate w ds expr)) out fs fs' e.
Proof. exact (@evaluate_all). Qed.
Print Assumptions C61_evaluate.
Theorem C61_stats : forall D S K (w : world D S K) gs out fs fs' e, sound fs -> stats_cmd w gs (Some out) fs = (fs', e) -> all_or_nothing w (many_result w fs gs (w_stats w)) out fs fs' e.
Proof. exact (@stats_all). Qed.
Print Assumptions C61_stats.
Theorem C61_stats_quiet : forall D S K (w : world D S K) gs fs, fst (stats_cmd w gs None fs) = fs.
Proof. exact (@stats_quiet). Qed.
Print Assumptions C61_stats_quiet.
(** Whatever the command, and links to files notwithstanding: once the output has passed the checks on the command line, no input file is changed. *)
Theorem C61_inputs_kept : forall D S K (w : world D S K) env fs fs' e force ext given inputs var out, sound fs -> describes env fs ->
  validate_output_file env force ext given inputs = Proceed var out ->
  command_ran w out fs fs' e inputs -> forall p, In p inputs -> f_ino fs p <> None -> view fs' p = view fs p.
Proof. exact (@inputs_kept). Qed.
Print Assumptions C61_inputs_kept.

(** ** C52 and C64 *)
(** Collocation: every datagroup is collocated, in order, and the last result is in the output.  With an error, the results of the datagroups before it
    were written: the last of them is left, unless the saving broke off. *)
Theorem C52_last_group_partial : forall D S K (w : world D S K) a fs fs' e, sound fs -> reads_its_files w -> apart a fs -> col_cmd w a fs = (fs', e) ->
  changes_only (ca_output a) fs fs' /\
  match e with
  | Done => exists s k m ds, sample_of w a fs s /\ kernel_is w a k /\ meant_or_none a m /\ Forall2 (collocated w a fs s k m) (ca_groups a) ds /\ last_result fs (ca_output a) ds (view fs' (ca_output a))
  | Exit1 => False
  | Error x => (changes_nothing fs fs' /\ ((forall s, ~ sample_of w a fs s) \/ forall k, ~ kernel_is w a k)) \/
      exists s k m gs1 g gs2 ds, sample_of w a fs s /\ kernel_is w a k /\ meant_or_none a m /\ ca_groups a = gs1 ++ g :: gs2 /\ Forall2 (collocated w a fs s k m) gs1 ds /\
      ((not_collocated w a fs s k m g x /\ last_result fs (ca_output a) ds (view fs' (ca_output a))) \/
       exists d, collocated w a fs s k m g d /\
         ((w_save w d (ca_output a) = Refused x /\ last_result fs (ca_output a) ds (view fs' (ca_output a))) \/
          exists n, w_save w d (ca_output a) = BrokenOff x n /\ view fs' (ca_output a) = Some (Bytes n)))
  end.
Proof. exact (@col_all). Qed.
Print Assumptions C52_last_group_partial.
(** with one datagroup nothing is lost *)
Theorem C52_one_group_partial : forall D S K (w : world D S K) a g fs fs', sound fs -> reads_its_files w -> apart a fs -> ca_groups a = [g] -> col_cmd w a fs = (fs', Done) ->
  exists s k m d, sample_of w a fs s /\ kernel_is w a k /\ meant_or_none a m /\ collocated w a fs s k m g d /\ view fs' (ca_output a) = Some (Result d).
Proof.
  intros D S K w a g fs fs' So RF Ap G E. destruct (col_all _ _ _ _ _ So RF Ap E) as (_ & s & k & m & ds & A & B & C & F & L). rewrite G in F.
  inversion F as [|? d ? ? F1 F2]; subst. inversion F2; subst. exists s, k, m, d. repeat split; auto. destruct L as [[L _]|(ds0 & d' & L & ->)]; [discriminate|].
  destruct ds0 as [|? [|? ?]]; try discriminate. injection L as ->. reflexivity.
Qed.
Print Assumptions C52_one_group_partial.

(** ** A world of numbers: a file with the bytes n is the data n; collocating adds the sample, and fails on 13 *)
Definition read_number (v : str -> option (content nat)) (g : datagroup) : res nat :=
  match g_files g with p :: _ => match v p with Some (Bytes n) => Ok n | _ => Raises OSError end | [] => Raises IndexError end.
Definition numbers : world nat nat nat := mkWorld read_number Nat.even (fun _ _ _ _ => Ok 100) (fun _ _ => Raises ClassNotFoundError)
  (fun d s _ _ m _ => if d =? 13 then Raises ValueError else Ok (d + s + (match m with Some true => 0 | Some false => 50 | None => 90 end)))
  (fun _ d => if d =? 7 then Ok None else Ok (Some (d + 1))) (fun _ _ d => Ok (d + 2)) (fun _ _ d => Ok (d + 3)) (fun ds _ => Ok (fold_right plus 0 ds)) (fun ds => Ok (length ds))
  (fun d p => if d =? 666 then BrokenOff OSError 1 else Saved).
(** "link" is another name of "one.nc"; "old.nc" holds an old result *)
Definition here : files nat := mkFiles (fun p => if str_eqb p (lit "one.nc") then Some 0 else if str_eqb p (lit "link") then Some 0 else if str_eqb p (lit "two.nc") then Some 1
  else if str_eqb p (lit "bad.nc") then Some 2 else if str_eqb p (lit "old.nc") then Some 3 else None) (fun i => nth i [Bytes 1; Bytes 2; Bytes 13; Result 77] (Bytes 0)) 4.
Definition grp (f : str) : datagroup := mkGroup [f] [lit "v"] None None.
Definition col_two (groups : list datagroup) (var : option str) (o : option (option str)) (out : str) : col_args :=
  mkCol groups [lit "two.nc"] var None (match o with Some v => Some (lit "box", [(mdfms, v); (lit "h_sep", Some (lit "10"))]) | None => None end) None out.
Lemma here_sound : sound here.
Proof. intros p i. unfold here. cbn. repeat (destruct (str_eqb p _); [intros H; injection H as <-; lia|]). discriminate. Qed.
Lemma numbers_read : reads_its_files numbers.
Proof. intros v v' g H. cbn. unfold read_number. destruct (g_files g) as [|p l]; auto. rewrite (H p); [reflexivity|left; auto]. Qed.
Lemma here_apart groups var o : (forall g, In g groups -> g = grp (lit "one.nc") \/ g = grp (lit "two.nc") \/ g = grp (lit "bad.nc")) -> apart (col_two groups var o (lit "old.nc")) here.
Proof.
  intros H g p Hg Hp. destruct (H g Hg) as [->|[->| ->]]; cbn in Hp; destruct Hp as [<-|[]]; (split; [vm_compute; discriminate|]); intros (i & A & B); vm_compute in A, B; injection A as <-; discriminate.
Qed.

(** Two datagroups collocated without an error: the result of the first is in no file. *)
Theorem C52_every_group_refuted : exists (w : world nat nat nat) a fs fs' s k m g1 g2 d1, sound fs /\ reads_its_files w /\ apart a fs /\ ca_groups a = [g1; g2] /\ col_cmd w a fs = (fs', Done) /\
  sample_of w a fs s /\ kernel_is w a k /\ meant_or_none a m /\ collocated w a fs s k m g1 d1 /\ view fs' (ca_output a) <> Some (Result d1) /\ (forall p, view fs' p <> Some (Result d1)).
Proof.
  exists numbers, (col_two [grp (lit "one.nc"); grp (lit "two.nc")] (Some (lit "x")) None (lit "old.nc")), here, (write (write here (lit "old.nc") (Result 101)) (lit "old.nc") (Result 102)). exists 100, None, (Some true), (grp (lit "one.nc")), (grp (lit "two.nc")), 101.
  split; [apply here_sound|]. split; [apply numbers_read|]. split; [apply here_apart; cbn; intuition|]. split; [reflexivity|]. split; [vm_compute; reflexivity|].
  split; [reflexivity|]. split; [reflexivity|]. split; [reflexivity|]. split; [exists 1; split; reflexivity|]. split; [vm_compute; discriminate|].
  intros p. unfold view, write. change (f_ino here (lit "old.nc")) with (Some 3). cbn [f_ino f_body]. change (f_ino here (lit "old.nc")) with (Some 3). cbn [f_ino f_body].
  unfold here. cbn [f_ino f_body]. repeat (destruct (str_eqb p _); [vm_compute; discriminate|]). discriminate.
Qed.
Print Assumptions C52_every_group_refuted.
(** A collocation that ends with an error has replaced the old output by the result of the datagroups before the failing one. *)
Theorem C61_collocate_refuted : exists (w : world nat nat nat) a fs fs' x, sound fs /\ reads_its_files w /\ apart a fs /\ (forall d, w_save w d (ca_output a) = Saved \/ d = 666) /\
  col_cmd w a fs = (fs', Error x) /\ view fs' (ca_output a) <> view fs (ca_output a).
Proof.
  exists numbers, (col_two [grp (lit "one.nc"); grp (lit "bad.nc")] (Some (lit "x")) None (lit "old.nc")), here. do 2 eexists.
  split; [apply here_sound|]. split; [apply numbers_read|]. split; [apply here_apart; cbn; intuition|].
  split; [intros d; cbn; destruct (Nat.eqb_spec d 666); auto|]. split; [vm_compute; reflexivity|]. vm_compute. discriminate.
Qed.
Print Assumptions C61_collocate_refuted.

(** ** C64 *)
(** a valid option, or none: collocation is told what is meant *)
Theorem C64_missing_sample_partial : forall D S K (w : world D S K) a b fs fs', sound fs -> reads_its_files w -> apart a fs -> meant a b -> col_cmd w a fs = (fs', Done) ->
  exists s k ds, sample_of w a fs s /\ kernel_is w a k /\ Forall2 (collocated w a fs s k (Some b)) (ca_groups a) ds.
Proof.
  intros D S K w a b fs fs' So RF Ap M E. destruct (col_all _ _ _ _ _ So RF Ap E) as (_ & s & k & m & ds & A & B & C & F & _). exists s, k, ds. repeat split; auto.
  assert (m = Some b) as <-; auto. destruct m as [b'|]; [|exfalso; eapply C; eauto]. f_equal. revert C M. cbn. unfold meant, truth. destruct (option_given a) as [[o|]|]; [|congruence|congruence].
  intros C M. destruct b, b'; auto; rewrite C in M; discriminate.
Qed.
Print Assumptions C64_missing_sample_partial.
(** A value that is not a truth value is not refused: the collocator gets None. *)
Theorem C64_bad_value_refuted : exists (w : world nat nat nat) a fs fs' d, sound fs /\ reads_its_files w /\ apart a fs /\ (forall b, ~ meant a b) /\ col_cmd w a fs = (fs', Done) /\
  collocated w a fs 100 None None (grp (lit "one.nc")) d /\ view fs' (ca_output a) = Some (Result d).
Proof.
  exists numbers, (col_two [grp (lit "one.nc")] (Some (lit "x")) (Some (Some (lit "yes"))) (lit "old.nc")), here. do 2 eexists.
  split; [apply here_sound|]. split; [apply numbers_read|]. split; [apply here_apart; cbn; intuition|].
  split; [intros [|] H; vm_compute in H; discriminate|]. split; [vm_compute; reflexivity|]. split; [exists 1; split; vm_compute; reflexivity|]. vm_compute. reflexivity.
Qed.
Print Assumptions C64_bad_value_refuted.

Definition here_env : environment := mkEnv (fun p => match f_ino here p with Some _ => true | None => false end) (fun p => match f_ino here p with Some _ => true | None => false end)
  (fun p q => match f_ino here p, f_ino here q with Some i, Some j => i =? j | _, _ => false end) (fun p => existsb (fun c => if ascii_dec c "."%char then true else false) p) [] [lit "y"].
Lemma here_described : describes here_env here.
Proof.
  split.
  - intros p. cbn [env_exists here_env]. destruct (f_ino here p); split; congruence.
  - intros p q. cbn [env_samefile here_env]. unfold same_file. destruct (f_ino here p) as [i|], (f_ino here q) as [j|]; (split; [|intros (i' & A & B)]); try discriminate.
    + intros H. apply Nat.eqb_eq in H. subst. exists j. auto.
    + apply Nat.eqb_eq. congruence.
Qed.
Example C61_example :
  sound here /\ reads_its_files numbers /\ describes here_env here /\
  (exists fs', subset_cmd numbers [mkCg (grp (lit "one.nc")) None] [] (lit "old.nc") here = (fs', Done) /\ view fs' (lit "old.nc") = Some (Result 2)) /\
  (exists fs', aggregate_cmd numbers [mkCg (grp (lit "two.nc")) None] [(lit "t", None)] (lit "new.nc") here = (fs', Done) /\ view fs' (lit "new.nc") = Some (Result 5)) /\
  snd (aggregate_cmd numbers [mkCg (grp (lit "two.nc")) None] [(lit "t", Some (lit "[1,2,3]"))] (lit "new.nc") here) = Error InvalidCommandLineOptionError /\
  snd (collapse_cmd numbers [mkCg (grp (lit "one.nc")) None] [lit "t"] (lit "new.nc") here) = Error AttributeError /\
  subset_cmd numbers [mkCg (grp (lit "one.nc")) None; mkCg (grp (lit "two.nc")) None] [] (lit "old.nc") here = (here, Exit1) /\
  (exists fs', evaluate_cmd numbers [grp (lit "one.nc"); grp (lit "two.nc")] (lit "a+b") (lit "new.nc") here = (fs', Done) /\ view fs' (lit "new.nc") = Some (Result 3) /\ view fs' (lit "one.nc") = Some (Bytes 1)) /\
  validate_output_file here_env false (lit ".nc") (lit "old.nc") [lit "one.nc"] = Proceed None (lit "old.nc") /\
  validate_output_file here_env true (lit ".nc") (lit "one.nc") [lit "link"] = ErrorExit.
Proof.
  split; [apply here_sound|]. split; [apply numbers_read|]. split; [apply here_described|].
  split; [eexists; split; vm_compute; reflexivity|]. split; [eexists; split; vm_compute; reflexivity|]. do 3 (split; [vm_compute; reflexivity|]).
  split; [eexists; split; [vm_compute; reflexivity|split; vm_compute; reflexivity]|]. split; vm_compute; reflexivity.
Qed.
Example C52_example : exists fs', col_cmd numbers (col_two [grp (lit "one.nc")] None (Some (Some (lit "TRUE"))) (lit "old.nc")) here = (fs', Done) /\ view fs' (lit "old.nc") = Some (Result 101) /\
  meant (col_two [grp (lit "one.nc")] None (Some (Some (lit "TRUE"))) (lit "old.nc")) true /\ meant (col_two [] None None []) false /\ apart (col_two [grp (lit "one.nc")] None (Some (Some (lit "TRUE"))) (lit "old.nc")) here.
Proof. eexists. split; [vm_compute; reflexivity|]. repeat split; try (vm_compute; reflexivity); (intros; apply (here_apart [grp (lit "one.nc")] None (Some (Some (lit "TRUE"))) ltac:(cbn; intuition) g p); auto). Qed.
