(** The command karabo-data-make-virtual-cxi (C78). *)
From Verif Require Import Base PyStr M_Files M_Machinery M_Reader M_Select M_Series M_Stacking M_Components M_Cxi M_OpenRun M_MakeCxi
  S_Open S_Reader S_Coll S_Stacking S_OpenRun S_Components S_MakeCxi L_Select L_Check L_Check2 L_Check3 L_Components6 L_Components7 L_MakeCxi L_MakeCxi2 Ex_Files
  P_Series P_Components P_Cxi.
Local Open Scope string_scope.
Local Open Scope list_scope.

(** The command writes the file [F] from the run in [R] if and only if these are the ones its arguments mean, the run
    directory is readable, the directory of the file writable, and the run has an AGIPD, or no AGIPD but an LPD, for which
    write_virtual_cxi succeeds; the contents are what it writes. *)
Theorem C78_writes : forall (V : Type) (pulse : V -> Z) (E : cxi_env V) (cwd : list string) a R F c,
  Forall name_ok cwd -> en_cwd E = path_of cwd -> usual_args cwd a -> (forall d, en_run E R = Ok d -> sound_run d) ->
  make_virtual_cxi pulse E a = Wrote R F c <->
  designates cwd a R F /\ en_read E R = true /\ (exists dir, folder cwd F dir /\ en_write E dir = true) /\
  exists d m shape, en_run E R = Ok d /\ picked d (min_modules_of a) m shape /\ write_virtual_cxi pulse m shape = Ok c.
Proof. intros V pulse E cwd a R F c HC HE HU HS. exact (@writes_spec V pulse E cwd HC HE a R F c HU HS). Qed.
Print Assumptions C78_writes.

(** The detector is one to which the properties of write_virtual_cxi (C43, C44, C64) apply. *)
Theorem C78_detector : forall (V : Type) (d : dcoll V) min m shape, sound_run d -> picked d min m shape ->
  exists tag, (tag = "_AGIPD1M" \/ tag = "_LPD1M") /\ detector_of tag d None None min m.
Proof. intros V d min m shape. exact (@picked_made V d min m shape). Qed.
Print Assumptions C78_detector.

(** How it ends otherwise: nothing is written. *)
Theorem C78_refused : forall (V : Type) (pulse : V -> Z) (E : cxi_env V) (cwd : list string) a,
  Forall name_ok cwd -> en_cwd E = path_of cwd -> usual_args cwd a ->
  ((forall R F, ~ designates cwd a R F) -> make_virtual_cxi pulse E a = NoPattern \/ make_virtual_cxi pulse E a = Raised EValueError) /\
  (forall R F, designates cwd a R F ->
    (en_read E R = false -> make_virtual_cxi pulse E a = NoRead R) /\
    (forall dir, en_read E R = true -> folder cwd F dir -> en_write E dir = false -> make_virtual_cxi pulse E a = NoWrite dir) /\
    (forall dir d, en_read E R = true -> folder cwd F dir -> en_write E dir = true -> en_run E R = Ok d -> sound_run d ->
       ~ has_detector "_AGIPD1M" d -> ~ has_detector "_LPD1M" d -> make_virtual_cxi pulse E a = NoDetector R)).
Proof. intros V pulse E cwd a HC HE HU. exact (@refusals V pulse E cwd HC HE a HU). Qed.
Print Assumptions C78_refused.

(** Different runs never share a default file, whichever way they are given. *)
Theorem C78_distinct : forall (cwd : list string) a a' R R' F, Forall name_ok cwd -> usual_args cwd a -> usual_args cwd a' ->
  ca_output a = None -> ca_output a' = None -> designates cwd a R F -> designates cwd a' R' F -> R = R'.
Proof. exact default_distinct. Qed.
Print Assumptions C78_distinct.

(** *** Examples *)
Definition in_p1 (d : dcoll Z) (p : string) : res (dcoll Z) :=
  if String.eqb p "/exp/p1/raw/r0012" || String.eqb p "/exp/p1/proc/r0012" then Ok d else Err EFileNotFoundError.
Definition cxi_world (d : dcoll Z) : cxi_env Z :=
  mk_cxi_env "/exp/p1/usr" (fun _ => true) (fun p => String.eqb p "/exp/p1/scratch" || String.eqb p "/tmp") (in_p1 d).
Definition result (o : outcome Z) := match o with Wrote R F c => Some (R, F, cx_train_id c) | _ => None end.

Lemma cxi_run_sound : sound_run cxi_run.
Proof.
  split; [exact cxi_run_reachable|]. split; [apply distinct_kindsb_ok; vm_compute; reflexivity|]. split; [apply good_filesb_ok; vm_compute; reflexivity|].
  intros tag s p Ht Hs Hp. apply (proj2 (match_detname_spec tag s p)) in Hp.
  assert (X : p = "SPB_DET_AGIPD1M-1").
  { vm_compute in Hs. destruct Hs as [<-|[<-|[]]]; destruct Ht as [-> | ->]; vm_compute in Hp; congruence. }
  subst p. apply countableb_ok. vm_compute. reflexivity.
Qed.
Example C78_example : sound_run cxi_run /\ Forall name_ok ["exp"; "p1"; "usr"] /\
  usual_args ["exp"; "p1"; "usr"] (mk_cxi_args "../proc/..//raw/r0012/" None None (Some 1%Z)) /\
  result (make_virtual_cxi idZ (cxi_world cxi_run) (mk_cxi_args "../proc/..//raw/r0012/" None None (Some 1%Z))) =
    Some ("/exp/p1/raw/r0012", "/exp/p1/scratch/r0012_raw_detectors_virt.cxi", [10; 10; 11; 11; 12; 12; 13; 13; 14; 14]%Z) /\
  result (make_virtual_cxi idZ (cxi_world cxi_run) (mk_cxi_args "/exp/p1" (Some "12") None (Some 2%Z))) =
    Some ("/exp/p1/proc/r0012", "/exp/p1/scratch/r0012_detectors_virt.cxi", [10; 10; 12; 12; 14; 14]%Z) /\
  result (make_virtual_cxi idZ (cxi_world cxi_run) (mk_cxi_args "/exp/p1/raw/r0012" None (Some "/tmp/x.cxi") (Some 1%Z))) =
    Some ("/exp/p1/raw/r0012", "/tmp/x.cxi", [10; 10; 11; 11; 12; 12; 13; 13; 14; 14]%Z) /\
  make_virtual_cxi idZ (cxi_world cxi_run) (mk_cxi_args "/exp/p1/raw/r0012" None None None) = Raised EValueError /\
  make_virtual_cxi idZ (cxi_world cxi_run) (mk_cxi_args "/exp/p1/raw/r0012" None (Some "x.cxi") (Some 1%Z)) = NoWrite "/exp/p1/usr" /\
  make_virtual_cxi idZ (cxi_world cxi_run) (mk_cxi_args "/exp/p1/raw/r10000" None None (Some 1%Z)) = NoPattern.
Proof.
  split; [exact cxi_run_sound|]. split; [repeat constructor; cbn; intuition discriminate|]. split.
  - split; [intros q H; discriminate|]. split; [discriminate|]. split; [discriminate|]. intros _ k r (ws & Hw & H).
    apply words_iff in Hw. vm_compute in Hw. subst ws. destruct H as [[[q H] _]|[_ H]]; [discriminate|]. vm_compute in H. discriminate.
  - repeat split; vm_compute; reflexivity.
Qed.

(** For a run directly under the root directory the default file is not in /scratch but in the directory scratch of the current directory. *)
Theorem C78_root_refuted : exists (E : cxi_env Z) a c, ca_output a = None /\ leads ["exp"; "p1"; "usr"] (ca_run_dir a) ["raw"; "r0012"] /\
  en_cwd E = path_of ["exp"; "p1"; "usr"] /\ make_virtual_cxi idZ E a = Wrote "/raw/r0012" "scratch/r0012_raw_detectors_virt.cxi" c.
Proof.
  set (E := mk_cxi_env "/exp/p1/usr" (fun _ => true) (fun _ => true) (fun _ => Ok cxi_run)).
  set (a := mk_cxi_args "/raw/r0012" None None (Some 1%Z)).
  assert (X : exists c, make_virtual_cxi idZ E a = Wrote "/raw/r0012" "scratch/r0012_raw_detectors_virt.cxi" c) by (eexists; vm_compute; reflexivity).
  destruct X as [c Hc]. exists E, a, c. split; [reflexivity|]. split; [|split; [reflexivity|exact Hc]].
  exists ["" ; "raw"; "r0012"]. split; [apply words_iff; reflexivity|]. left. split; [eexists; reflexivity|reflexivity].
Qed.
Print Assumptions C78_root_refuted.

(** An AGIPD which cannot be used hides an LPD which could. *)
Definition lpd_name (n : string) : string := ("FXE_DET_LPD1M-1/DET/" ++ n ++ "CH0:xtdf")%string.
Definition lpd_file (fn n : string) : h5file Z :=
  mk_h5 fn (Some [10; 11]%Z) (Some "1.0") None (Some [("INSTRUMENT/" ++ lpd_name n ++ "/image")%string])
    [((lpd_name n ++ "/image")%string, mk_ix [0; 1]%Z (IxCount [1; 1]%Z))]
    [(("INSTRUMENT/" ++ lpd_name n ++ "/image/data")%string, mk_ds "u2" [1; 256; 256]%Z [7; 8]%Z); (("INSTRUMENT/" ++ lpd_name n ++ "/image/pulseId")%string, mk_ds "u8" [1]%Z [0; 0]%Z);
     (("INSTRUMENT/" ++ lpd_name n ++ "/image/cellId")%string, mk_ds "u2" [1]%Z [0; 0]%Z)].
Definition lpd_run : dcoll Z := force no_coll (open_files [lpd_file "LPD00" "0"; lpd_file "LPD01" "1"]).
Definition mixed_run : dcoll Z := force no_coll (open_files
  [lpd_file "LPD00" "0"; lpd_file "LPD01" "1"; cxi_file "AGIPD00" "0" [10; 11]%Z [0; 2]%Z [2; 2]%Z [0; 4; 0; 4]%Z [100; 101; 110; 111]%Z]).
Example C78_lpd_example :
  result (make_virtual_cxi idZ (cxi_world lpd_run) (mk_cxi_args "/exp/p1/raw/r0012" None None (Some 2%Z))) =
    Some ("/exp/p1/raw/r0012", "/exp/p1/scratch/r0012_raw_detectors_virt.cxi", [10; 11]%Z).
Proof. vm_compute. reflexivity. Qed.
Theorem C78_lpd_refuted : exists (E : cxi_env Z) a R d m c, en_run E R = Ok d /\ mpx_open "_LPD1M" d None None (min_modules_of a) = Ok m /\
  write_virtual_cxi idZ m [256; 256]%Z = Ok c /\ make_virtual_cxi idZ E a = Raised EValueError.
Proof.
  set (a := mk_cxi_args "/exp/p1/raw/r0012" None None (Some 2%Z)).
  exists (cxi_world mixed_run), a, "/exp/p1/raw/r0012", mixed_run.
  assert (X : exists m, mpx_open "_LPD1M" mixed_run None None 2 = Ok m /\ exists c, write_virtual_cxi idZ m [256; 256]%Z = Ok c)
    by (eexists; split; [vm_compute; reflexivity|eexists; vm_compute; reflexivity]).
  destruct X as (m & Hm & c & Hc). exists m, c. split; [reflexivity|]. split; [exact Hm|]. split; [exact Hc|]. vm_compute. reflexivity.
Qed.
Print Assumptions C78_lpd_refuted.
