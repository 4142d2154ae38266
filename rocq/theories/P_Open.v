(** Property theorems: opening files (C19, C20, C58, C59, C61). *)
From Verif Require Import Base PyStr M_Files M_Machinery M_Reader M_Glob M_Select S_Reader S_Coll S_Avail S_Open
  L_Base L_Machinery L_Reader L_GetArray L_Select L_Hist L_Open L_Check Ex_Files.
Local Open Scope string_scope.
Local Open Scope list_scope.

(** ** C19 *)
Theorem C19_open : forall (V : Type) (f : h5file V),
  (h5_trainid f = None -> fa_open f = Err EKeyError) /\
  (forall raw, h5_trainid f = Some raw ->
    (metadata_list f = None -> fa_open f = Err EKeyError) /\
    (forall l, metadata_list f = Some l ->
      ((exists e, In e l /\ ~ good_entry e) -> fa_open f = Err EValueError) /\
      ((forall e, In e l -> good_entry e) -> exists fa, fa_open f = Ok fa /\ fa_file fa = f /\
         fa_tids fa = filter (fun t => negb (t =? 0)%Z) raw /\
         (forall s, In s (fa_ctrl fa) <-> exists e, In e l /\ e <> "" /\ names_control e s) /\
         (forall s, In s (fa_inst fa) <-> exists e, In e l /\ e <> "" /\ names_instrument e s)))).
Proof. exact @open_spec. Qed.
Print Assumptions C19_open.
Theorem C19_positions : forall (V : Type) (f : h5file V) fa raw, fa_open f = Ok fa -> h5_trainid f = Some raw ->
  (exists tids pad, raw = tids ++ repeat 0%Z pad /\ Forall (fun t => t <> 0)%Z tids) ->
  forall p t, nth_error (fa_tids fa) p = Some t <-> (nth_error raw p = Some t /\ t <> 0%Z).
Proof. exact @open_positions. Qed.
Print Assumptions C19_positions.
(** If a zero comes before a train ID, every position after it is wrong. *)
Theorem C19_positions_refuted : forall (V : Type) (f : h5file V) fa raw p q t, fa_open f = Ok fa -> h5_trainid f = Some raw ->
  NoDup (filter (fun t => negb (t =? 0)%Z) raw) ->
  nth_error raw p = Some 0%Z -> (p < q)%nat -> nth_error raw q = Some t -> t <> 0%Z ->
  forall q', nth_error (fa_tids fa) q' = Some t -> (q' < q)%nat.
Proof. exact @open_positions_wrong. Qed.
Print Assumptions C19_positions_refuted.

(** A file with a gap of zeros: train 12 is read as the data of the gap. *)
Definition gap_file : h5file Z := mk_h5 "gap.h5" (Some [10; 0; 12]%Z) (Some "1.0") None (Some ["CONTROL/XGM"])
  [("XGM", mk_ix [0; 1; 2]%Z (IxCount [1; 1; 1]%Z))] [("CONTROL/XGM/pos", dsZ [100; 0; 102]%Z)].
Theorem C19_gap_data_refuted : exists (f : h5file Z) d r,
  open_files [f] = Ok d /\ train_from_id d 12 = Ok (12%Z, r) /\
  file_rows f true "XGM" "pos" 12 [102%Z] /\ item r "XGM" "pos" = Some (One 0%Z).
Proof.
  exists gap_file. destruct (open_files [gap_file]) as [d|] eqn:E; [|exfalso; revert E; vm_compute; discriminate].
  vm_compute in E. injection E as <-. do 2 eexists. split; [reflexivity|]. split; [vm_compute; reflexivity|]. split.
  - do 6 eexists. split; [reflexivity|]. split; [exact (eq_refl : nth_error [10; 0; 12]%Z 2 = Some 12%Z)|]. split.
    + intros [|[|q]] Hq; [discriminate|discriminate|lia].
    + repeat split.
  - vm_compute. reflexivity.
Qed.
Print Assumptions C19_gap_data_refuted.
Example C19_example : (forall e, In e ["CONTROL/XGM"; "INSTRUMENT/DET:out/image"; "INSTRUMENT/DET:out/header"; ""] -> good_entry e) /\
  metadata_list file1 = Some ["CONTROL/XGM"; "INSTRUMENT/DET:out/image"; "INSTRUMENT/DET:out/header"; ""] /\
  (exists fa, fa_open file1 = Ok fa /\ fa_tids fa = [10; 11; 12]%Z /\ fa_ctrl fa = ["XGM"] /\ fa_inst fa = ["DET:out"]) /\
  names_instrument "INSTRUMENT/DET:out/image" "DET:out" /\ ~ good_entry "RUN/XGM".
Proof.
  split; [|split; [reflexivity|split; [eexists; repeat split|split]]].
  - intros e [<-|[<-|[<-|[<-|[]]]]].
    + right; left. eexists. split; [simpl; intuition discriminate|]. left. reflexivity.
    + right; right. eexists. split; [simpl; intuition discriminate|]. left. reflexivity.
    + right; right. eexists. split; [simpl; intuition discriminate|]. left. reflexivity.
    + now left.
  - exists "DET:out/image", "DET", "out/image", "out", "image".
    repeat split; try (simpl; intuition discriminate); left; reflexivity.
  - assert (H : cut "/" "RUN/XGM" "RUN" "XGM") by (split; [simpl; intuition discriminate|left; reflexivity]).
    intros [X|[[r X]|[r X]]]; [discriminate| |]; destruct (cut_fun H X); discriminate.
Qed.

(** ** C20 *)
Theorem C20_old_index : forall (V : Type) (fa : faccess V) s g firsts lasts status,
  dict_get (ix_path s g) (h5_index (fa_file fa)) = Some (mk_ix firsts (IxLastStatus lasts status)) ->
  let n := List.length (fa_tids fa) in
  (n <= List.length firsts)%nat -> (n <= List.length lasts)%nat -> (n <= List.length status)%nat ->
  exists counts, fa_get_index fa s g = Ok (firstn n firsts, counts) /\ List.length counts = n /\
    forall p a b st, (p < n)%nat -> nth_error firsts p = Some a -> nth_error lasts p = Some b -> nth_error status p = Some st ->
      u64_range a -> u64_range b ->
      (st = 0%Z -> nth_error counts p = Some 0%Z) /\
      (st = 1%Z -> (a <= b + 1)%Z -> (b - a + 1 < 2 ^ 64)%Z -> nth_error counts p = Some (b - a + 1)%Z).
Proof. exact @old_index. Qed.
Print Assumptions C20_old_index.
(** Including the train without data where last = first - 1 wraps below 0. *)
Definition old_file : h5file Z := mk_h5 "old.h5" (Some [1; 2; 3; 4]%Z) None (Some ["INSTRUMENT/DET:out/image"]) None
  [("DET:out/image", mk_ix [0; 3; 3; 0]%Z (IxLastStatus [2; 3; 2; 2 ^ 64 - 1]%Z [1; 0; 1; 1]%Z))] [].
Example C20_example : exists fa, fa_open old_file = Ok fa /\ fa_get_index fa "DET:out" "image" = Ok ([0; 3; 3; 0]%Z, [3; 0; 0; 0]%Z).
Proof. eexists. split; [vm_compute; reflexivity|vm_compute; reflexivity]. Qed.

(** ** C58 *)
Theorem C58_control_names : forall s s', names_control ("CONTROL/" ++ s) s' <-> s' = s.
Proof. exact control_roundtrip. Qed.
Print Assumptions C58_control_names.
Theorem C58_instrument_names : forall (V : Type) (f : h5file V) fa s group s',
  fa_open f = Ok fa -> In s (fa_inst fa) ->
  (names_instrument ("INSTRUMENT/" ++ s ++ "/" ++ group) s' <-> s' = s).
Proof.
  intros V f fa s g s' H Hs. apply instrument_roundtrip. destruct (open_spec f) as [O1 O2].
  destruct (h5_trainid f) as [raw|]; [|rewrite O1 in H by reflexivity; discriminate].
  destruct (O2 raw eq_refl) as [O3 O4]. destruct (metadata_list f) as [l|]; [|rewrite O3 in H by reflexivity; discriminate].
  destruct (O4 l eq_refl) as [_ O5]. assert (G : forall e, In e l -> good_entry e).
  { intros e He.
    destruct (string_dec e "") as [->|N]; [now left|]. destruct (py_partition slash e) as [[cat m] h5] eqn:E. apply partition_cut in E.
    destruct (string_dec cat "CONTROL") as [->|N1]; [right; left; eexists; exact E|].
    destruct (string_dec cat "INSTRUMENT") as [->|N2]; [right; right; eexists; exact E|]. exfalso.
    assert (B : ~ good_entry e) by (intros [X|[[r X]|[r X]]]; [contradiction| |]; destruct (cut_fun E X); contradiction).
    destruct (O4 l eq_refl) as [O6 _]. rewrite O6 in H by eauto. discriminate. }
  destruct (O5 G) as (fa' & E & _ & _ & _ & Hi). rewrite E in H. injection H as ->. apply Hi in Hs as (e & _ & _ & Hn).
  eapply names_instrument_name; exact Hn.
Qed.
Print Assumptions C58_instrument_names.
Theorem C58_keys_readable : forall (V : Type) (fa : faccess V) s ks k, fa_get_keys fa s = Ok ks -> In k ks ->
  (forall section rel ds, In ((section ++ "/" ++ s ++ "/" ++ rel)%string, ds) (h5_data (fa_file fa)) -> ~ has_char "." rel) ->
  exists ds, fa_dataset fa (ds_path (if str_in s (fa_ctrl fa) then "CONTROL" else "INSTRUMENT") s k) = Ok ds.
Proof. exact @keys_readable. Qed.
Print Assumptions C58_keys_readable.
(** A dataset with a dot in its name is listed but cannot be read. *)
Theorem C58_dotted_name_refuted : exists (f : h5file Z) fa k, fa_open f = Ok fa /\
  (exists ks, fa_get_keys fa "XGM" = Ok ks /\ In k ks) /\ fa_dataset fa (ds_path "CONTROL" "XGM" k) = Err EKeyError.
Proof.
  exists (mk_h5 "dot.h5" (Some [1]%Z) None (Some ["CONTROL/XGM"]) None [] [("CONTROL/XGM/a.b", dsZ [5%Z])]).
  eexists. exists "a.b". split; [vm_compute; reflexivity|]. split; [eexists; split; [vm_compute; reflexivity|now left]|].
  vm_compute. reflexivity.
Qed.
Print Assumptions C58_dotted_name_refuted.
Example C58_example : exists fa ks, fa_open file1 = Ok fa /\ In "DET:out" (fa_inst fa) /\
  fa_get_keys fa "DET:out" = Ok ks /\ ks = ["image.data"; "header.len"].
Proof. do 2 eexists. split; [vm_compute; reflexivity|]. split; [now left|]. split; [vm_compute; reflexivity|vm_compute; reflexivity]. Qed.

(** ** C59 *)
Theorem C59_from_paths : forall (V : Type) (l : list (res (faccess V))),
  let good := flat_map (fun r => match r with Ok f => [f] | Err _ => [] end) l in
  ((forall f, ~ In (Ok f) l) -> from_paths l = Err EException) /\
  ((exists f, In (Ok f) l) -> conflicting good -> from_paths l = Err EValueError) /\
  ((exists f, In (Ok f) l) -> ~ conflicting good -> exists d, from_paths l = Ok d /\ dc_files d = good /\
     (forall t, In t (dc_tids d) <-> exists f, In (Ok f) l /\ In t (fa_tids f)) /\ StronglySorted Z.lt (dc_tids d)).
Proof. exact @from_paths_spec. Qed.
Print Assumptions C59_from_paths.
Example C59_example : exists d, from_paths [Err EOSError; fa_open file1; Err EKeyError; fa_open file3] = Ok d /\
  dc_tids d = [10; 11; 12; 13]%Z /\ map (fun f => h5_name (fa_file f)) (dc_files d) = ["seq0.h5"; "cam.h5"].
Proof. eexists. split; [vm_compute; reflexivity|]. split; reflexivity. Qed.

(** ** C61 *)
Theorem C61_access_caches_invisible : forall (V : Type) (fa : faccess V) calls,
  fa_run fa fa_cache0 calls =
  map (fun x => match x with CallIndex s g => RIndex (fa_get_index fa s g) | CallKeys s => RKeys (fa_get_keys fa s) end) calls.
Proof. exact @fa_cache_invisible. Qed.
Print Assumptions C61_access_caches_invisible.
Example C61_example : exists fa, fa_open file1 = Ok fa /\
  fa_run fa fa_cache0 [CallIndex "DET:out" "image"; CallIndex "DET:out" "header"; CallIndex "DET:out" "image"; CallKeys "XGM"] =
  [RIndex (Ok ([0; 2; 2]%Z, [2; 0; 3]%Z)); RIndex (Ok ([0; 1; 1]%Z, [1; 0; 1]%Z)); RIndex (Ok ([0; 2; 2]%Z, [2; 0; 3]%Z)); RKeys (Ok ["beam.pos"])].
Proof. eexists. split; [vm_compute; reflexivity|vm_compute; reflexivity]. Qed.
