(** Model of the groups, datasets, links and attributes of a virtual CXI file: write_cxi.py 166-225. *)
From Verif Require Import Base PyStr M_Files M_Machinery M_Reader M_Components M_Cxi.
Set Implicit Arguments.
Local Open Scope string_scope.
Local Open Scope list_scope.

Section File.
Context {V : Type}.

(** What a dataset contains. *)
Inductive content := CNumbers (l : list Z) | CTexts (l : list string) | CVirtual (l : layout V).
(** An object in an HDF5 file: a group with named members, a dataset with its shape and its attribute 'axes' (if it has
    one), or a soft link to an absolute path (given by its parts). *)
Inductive node :=
| Group (members : list (string * node))
| Dataset (shape : list Z) (axes : option string) (c : content)
| SoftLink (target : list string).

(** h5py: creating an object at a path from a group; missing groups on the way are made, a name which is taken is refused
    (ValueError or RuntimeError).  Soft links on the way are not followed here (there are none when objects are created). *)
Fixpoint put (path : list string) (o : node) (n : node) : res node :=
  match n with
  | Group ms =>
      match path with
      | [] => Err EValueError
      | [x] => match dict_get x ms with Some _ => Err EValueError | None => Ok (Group (dict_set x o ms)) end
      | x :: rest =>
          match dict_get x ms with
          | Some sub => let* sub := put rest o sub in Ok (Group (dict_set x sub ms))
          | None => let* sub := put rest o (Group []) in Ok (Group (dict_set x sub ms))
          end
      end
  | _ => Err EValueError
  end.

Definition det_path : list string := ["entry_1"; "instrument_1"; "detector_1"].
(** Lengths: write_cxi.py 35, 44-46. *)
Definition len {A} (l : list A) : Z := Z.of_nat (List.length l).

(** write_cxi.py 191-200. *)
Definition axes_of (c : cxi V) : string :=
  match cx_data_gain c with
  | None => "experiment_identifier:module_identifier:y:x"
  | Some _ => "experiment_identifier:module_identifier:data_gain:y:x"
  end.
(** A virtual dataset with its first dimensions, frames and modules. *)
Definition virtual (nframes : Z) (axes : string) (l : layout V) : node :=
  Dataset (nframes :: n_modules :: ly_item l) (Some axes) (CVirtual l).

(** write_cxi.py 176-223: the objects in the order in which they are made; [nframes] is [self.nframes]. *)
Definition cxi_objects (nframes : Z) (c : cxi V) : list (list string * node) :=
  let member name := match dict_get name (cx_layouts_of c) with
                     | Some l => [(det_path ++ [name], virtual nframes (axes_of c) l)] | None => [] end in
  [(["cxi_version"], Dataset [1%Z] None (CNumbers [150%Z]));
   (["entry_1"; "experiment_identifier"], Dataset [len (cx_experiment_id c)] None (CTexts (cx_experiment_id c)));
   (["entry_1"; "pulseId"], Dataset [len (cx_pulse_id c)] None (CNumbers (cx_pulse_id c)));
   (["entry_1"; "trainId"], Dataset [len (cx_train_id c)] None (CNumbers (cx_train_id c)))] ++
  match dict_get "cellId" (cx_layouts_of c) with
  | Some l => [(["entry_1"; "cellId"], virtual nframes "experiment_identifier:module_identifier" l)]
  | None => [] end ++
  [(det_path, Group [])] ++
  match cx_data_gain c with
  | Some l => [(["entry_1"; "data_gain"], Dataset [len l] None (CTexts l)); (det_path ++ ["data_gain"], SoftLink ["entry_1"; "data_gain"])]
  | None => [] end ++
  member "data" ++ member "gain" ++ member "mask" ++
  [(det_path ++ ["experiment_identifier"], SoftLink ["entry_1"; "experiment_identifier"]);
   (["entry_1"; "data_1"], SoftLink det_path);
   (det_path ++ ["module_identifier"], Dataset [len (cx_module_id c)] None (CNumbers (cx_module_id c)))].
Definition cxi_tree (nframes : Z) (c : cxi V) : res node :=
  foldM (fun n po => put (fst po) (snd po) n) (Group []) (cxi_objects nframes c).

(** write_cxi.py 166-225: the file. *)
Definition write_cxi_file (pulse : V -> Z) (m : mpx V) (shape : list Z) : res node :=
  let* c := write_virtual_cxi pulse m shape in cxi_tree (cxi_nframes m) c.
End File.
Arguments content V : clear implicits.
Arguments node V : clear implicits.
