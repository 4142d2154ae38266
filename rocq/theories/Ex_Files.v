(** Concrete files used to show that the hypotheses of the theorems can be met. *)
From Verif Require Import Base PyStr M_Files M_Machinery M_Reader M_Glob M_Select S_Reader S_Coll L_Check.
Set Implicit Arguments.
Local Open Scope string_scope.
Local Open Scope list_scope.

(** A control source XGM and a detector module DET, over two sequence files with
    trains 10,11,12 and 13,14; DET has no data for train 11, several rows for
    others, and trailing zeros pad the train IDs of the first file; the second
    file is in the old index format.  A third file holds source CAM, only for
    trains 11 and 13. *)
Definition dsZ (l : list Z) : dataset Z := mk_ds "f4" [] l.
Definition file1 : h5file Z := mk_h5 "seq0.h5" (Some [10;11;12;0;0]%Z) (Some "1.0") None
  (Some ["CONTROL/XGM"; "INSTRUMENT/DET:out/image"; "INSTRUMENT/DET:out/header"; ""])
  [("XGM", mk_ix [0;1;2]%Z (IxCount [1;1;1]%Z));
   ("DET:out/image", mk_ix [0;2;2]%Z (IxCount [2;0;3]%Z));
   ("DET:out/header", mk_ix [0;1;1]%Z (IxCount [1;0;1]%Z))]
  [("CONTROL/XGM/beam/pos", dsZ [100;101;102]%Z);
   ("INSTRUMENT/DET:out/image/data", dsZ [1;2;3;4;5]%Z);
   ("INSTRUMENT/DET:out/header/len", dsZ [7;8]%Z)].
Definition file2 : h5file Z := mk_h5 "seq1.h5" (Some [13;14]%Z) None
  (Some ["CONTROL/XGM"; "INSTRUMENT/DET:out/image"; "INSTRUMENT/DET:out/header"]) None
  [("XGM", mk_ix [0;1]%Z (IxCount [1;1]%Z));
   ("DET:out/image", mk_ix [0;1]%Z (IxLastStatus [0;2]%Z [1;1]%Z));
   ("DET:out/header", mk_ix [0;1]%Z (IxLastStatus [0;1]%Z [1;1]%Z))]
  [("CONTROL/XGM/beam/pos", dsZ [103;104]%Z);
   ("INSTRUMENT/DET:out/image/data", dsZ [6;7;8]%Z);
   ("INSTRUMENT/DET:out/header/len", dsZ [9;10]%Z)].
Definition file3 : h5file Z := mk_h5 "cam.h5" (Some [11;13]%Z) (Some "1.0") None
  (Some ["INSTRUMENT/CAM:daq/data"])
  [("CAM:daq/data", mk_ix [0;1]%Z (IxCount [1;1]%Z))]
  [("INSTRUMENT/CAM:daq/data/pix", dsZ [50;51]%Z)].

Definition force {A} (d : A) (r : res A) : A := match r with Ok x => x | Err _ => d end.
Definition no_coll : dcoll Z := mk_dc [] [] [] [] [].
Definition open_files (l : list (h5file Z)) : res (dcoll Z) :=
  let* fs := mapM (@fa_open Z) l in mk_collection fs None None.
Definition run : dcoll Z := force no_coll (open_files [file1; file2; file3]).

Lemma open_files_reachable : forall l d, open_files l = Ok d -> reachable d.
Proof.
  intros l d H. unfold open_files in H.
  destruct (mapM (@fa_open Z) l) as [fs|] eqn:E; [|discriminate]. eapply open_reachable; eassumption.
Qed.
Lemma run_open : open_files [file1; file2; file3] = Ok run.
Proof. vm_compute. reflexivity. Qed.
Lemma run_reachable : reachable run.
Proof. exact (open_files_reachable _ run_open). Qed.
Lemma run_good : good_collection run.
Proof. apply good_collectionb_ok. vm_compute. reflexivity. Qed.
