(** Lemmas on the text printed by lsxfel. *)
From Verif Require Import Base PyStr M_Files M_Reader M_Cxi M_OpenRun M_Repr M_Crystfel M_Info M_InfoText M_Lsxfel M_LsText
  M_Stacking S_Open S_Stacking S_OpenRun S_Repr S_Info S_InfoText S_Lsxfel S_LsText L_Crystfel L_Repr L_Frame L_Lsxfel P_InfoText.
Set Implicit Arguments.
Unset Strict Implicit.
Local Open Scope string_scope.
Local Open Scope list_scope.
Local Opaque int_repr str_of_int timedelta_str.

(** ** Where the lines come from *)
Section From.
Context {V : Type}.
Variable pop : list Z -> Z.
Variable pick_one : list string -> string.
Variable E : env (V := V).

Definition from (l : line) : Prop :=
  match l with
  | LName n d => exists i, filename_info n = Ok i /\ d = fn_descr i
  | LRun indent _ _ _ _ => indent = "" \/ indent = "  "
  | LInfo i => exists d : dcoll V, run_info pop true d = Ok i
  | _ => True
  end.
Definition wf {A} (m : W A) : Prop := Forall from (fst m).
Lemma wf_bind : forall A B (m : W A) (f : A -> W B), wf m -> (forall a, snd m = Ok a -> wf (f a)) -> wf (wbind m f).
Proof.
  intros A B [o [a|e]] f H K; [|exact H]. unfold wf, wbind in *. cbn in *. specialize (K a eq_refl). destruct (f a) as [o' r]. cbn in *.
  apply Forall_app. split; assumption.
Qed.
Lemma wf_lift : forall A (r : res A), wf (lift r). Proof. intros. constructor. Qed.
Lemma wf_ret : forall A (a : A), wf (wret a). Proof. intros. constructor. Qed.
Lemma wf_emit : forall l, from l -> wf (emit l). Proof. intros l H. repeat constructor. exact H. Qed.
Lemma wf_each : forall A (f : A -> W unit) l, (forall x, wf (f x)) -> wf (each f l).
Proof. intros A f l H. induction l as [|x l IH]; [apply wf_ret|]. cbn. apply wf_bind; auto. Qed.
Ltac go := repeat first [apply wf_lift | apply wf_ret | apply wf_emit; solve [exact I | cbn in *; eauto] | apply wf_bind; [|intros ? ?]].
Lemma wf_file : forall p, wf (describe_file pop pick_one E p).
Proof.
  intros p. unfold describe_file. go. 
  destruct (fn_detector a); go. destruct (di_dims a4) as [|? [|? [|]]]; go.
Qed.
Lemma wf_sum_file : forall p, wf (summarise_file pop pick_one E p).
Proof. intros p. unfold summarise_file. go. destruct (fn_detector a); go. Qed.
Lemma wf_run : forall p, wf (describe_run pop E p).
Proof. intros p. unfold describe_run. go. Qed.
Lemma wf_sum_run : forall p i, i = "" \/ i = "  " -> wf (summarise_run E p i).
Proof. intros p i H. unfold summarise_run. go. destruct a as [[[|g gs] d] o]; go. Qed.
Local Opaque describe_file summarise_file describe_run summarise_run.
Lemma wf_sum_runs : forall p l, wf (summarise_runs E p l).
Proof. intros p l. unfold summarise_runs. apply wf_each. intros f. destruct (_ && _); [apply wf_sum_run; auto|apply wf_ret]. Qed.
Local Opaque summarise_runs.
Lemma wf_one : forall p, wf (main_one pop pick_one E p).
Proof.
  intros p. unfold main_one. repeat match goal with |- wf (if ?b then _ else _) => destruct b end; go;
  first [apply wf_run|apply wf_sum_runs|apply wf_file].
Qed.
Lemma wf_many : forall ps c, wf (main_many pop pick_one E c ps).
Proof.
  induction ps as [|p ps IH]; intros c; [apply wf_ret|]. cbn [main_many]. apply wf_bind; [|intros b _; apply IH].
  unfold one_of_many. repeat match goal with |- wf (if ?b then _ else _) => destruct b end; go;
  first [apply wf_sum_run; auto|apply wf_sum_runs|apply wf_sum_file].
Qed.
Lemma wf_main : forall cwd ps, wf (main pop pick_one E cwd ps).
Proof. intros cwd [|p [|q ps]]; [apply wf_one|apply wf_one|apply wf_many]. Qed.
End From.

(** ** The lines as printed *)
Definition lines_of (l : line) : list string :=
  match l with
  | LName name d => [(name ++ " : " ++ descr_str d)%string]
  | LTrains n => [(nat_repr n ++ " trains")%string; ""]
  | LPixels a b => [(int_repr a ++ " " ++ times_sign ++ " " ++ int_repr b ++ " pixels")%string]
  | LFrames p t => [(int_repr p ++ " frames per train, " ++ int_repr t ++ " total")%string]
  | LInst s => (nat_repr (List.length s) ++ " instrument sources")%string :: map dev_line s ++ [""]
  | LCtrl s => (nat_repr (List.length s) ++ " control sources")%string :: map dev_line s ++ [""]
  | LSumDet n p t => [("  " ++ nat_repr n ++ " trains, " ++ int_repr p ++ " frames/train, " ++ int_repr t ++ " total frames")%string]
  | LRun indent name n d k =>
      [(indent ++ name ++ " : Run of " ++ right_aligned 4 n ++ " trains, with " ++ right_aligned 3 d ++
                    " detector files and " ++ right_aligned 3 k ++ " others")%string]
  | LInfo i => text_lines i
  | LNote name n => (name ++ " " ++ note_str n)%string :: note_blank n
  | LRaw name => [(name ++ "/raw/")%string]
  end.
Lemma line_text_lines : forall l, line_text l = print_lines (lines_of l).
Proof. intros []; reflexivity. Qed.
Lemma print_app : forall a b, print_lines (a ++ b) = (print_lines a ++ print_lines b)%string.
Proof. induction a as [|x a IH]; intros b; [reflexivity|]. cbn [print_lines fold_right app]. fold (print_lines (a ++ b)) (print_lines a). rewrite IH, !app_assoc_s. reflexivity. Qed.
Lemma output_lines : forall o, output o = print_lines (List.concat (map lines_of o)).
Proof. induction o as [|l o IH]; [reflexivity|]. cbn [output fold_right map List.concat]. fold (output o). rewrite IH, line_text_lines, print_app. reflexivity. Qed.

(** ** Numbers *)
Lemma spaces_char : forall n c, has_char c (str_repeat " " n) -> c = " "%char.
Proof. induction n as [|n IH]; intros c H; [destruct H|]. destruct H as [<-|H]; auto. Qed.
Lemma spaces_length : forall n, String.length (str_repeat " " n) = n.
Proof. induction n as [|n IH]; cbn; congruence. Qed.
Lemma aligned_ok : forall w n, aligned w n (right_aligned w n).
Proof.
  intros w n. unfold right_aligned, py_rjust. eexists _, _. split; [reflexivity|]. split; [apply int_expr_repr|]. split; [apply spaces_char|].
  rewrite length_append, spaces_length. split; [lia|]. intros H. destruct (w - String.length (nat_repr n))%nat eqn:X; [now destruct H|]. lia.
Qed.
Lemma one_line_aligned : forall w n, one_line (right_aligned w n).
Proof. intros w n. apply one_line_app; [|apply one_line_int]. intros H. apply spaces_char in H. discriminate H. Qed.
Lemma rjust_spaces : forall i j x y, (str_repeat " " i ++ x)%string = (str_repeat " " j ++ y)%string ->
  (forall r, x <> String " " r) -> (forall r, y <> String " " r) -> x = y.
Proof.
  induction i as [|i IH]; intros [|j] x y E X Y; cbn in E.
  - exact E.
  - destruct (X _ E).
  - destruct (Y _ (eq_sym E)).
  - injection E as E. eapply IH; eassumption.
Qed.
Lemma int_no_space : forall z s r, (int_repr z ++ s)%string <> String " " r.
Proof. intros z s r E. destruct (int_first z) as (c & t & X & C). rewrite X in E. injection E as E _. subst c. destruct C as [C|C]; discriminate C. Qed.
Lemma aligned_inj : forall w a b s t, no_digit_first s -> no_digit_first t -> (right_aligned w a ++ s)%string = (right_aligned w b ++ t)%string -> a = b /\ s = t.
Proof.
  intros w a b s t Hs Ht E. unfold right_aligned, py_rjust in E. rewrite !app_assoc_s in E. apply rjust_spaces in E; [|apply int_no_space|apply int_no_space].
  apply int_repr_inj in E as [E1 E2]; auto. split; [lia|exact E2].
Qed.
Lemma no_colon_aligned : forall w n, ~ has_char ":" (right_aligned w n).
Proof.
  intros w n H. apply has_char_app in H as [H|H]; [apply spaces_char in H; discriminate H|].
  assert (K : forall z s, int_expr z s -> ~ has_char ":" s); [|exact (K _ _ (int_expr_repr _) H)].
  clear. intros z s [n x (_ & D & _) _|n x (_ & D & _) _] H.
  - apply (digits_char D) in H. discriminate H.
  - destruct H as [H|H]; [discriminate H|]. apply (digits_char D) in H. discriminate H.
Qed.

(** ** Kinds of lines, by their ends *)
Definition ending (k : nat) (s : string) : list ascii := firstn k (rev (list_ascii_of_string s)).
Lemma chars_app : forall a b, list_ascii_of_string (a ++ b)%string = list_ascii_of_string a ++ list_ascii_of_string b.
Proof. induction a as [|c a IH]; intros b; cbn; [reflexivity|now rewrite IH]. Qed.
Lemma chars_length : forall a, List.length (list_ascii_of_string a) = String.length a.
Proof. induction a as [|c a IH]; cbn; congruence. Qed.
Lemma ending_app : forall k a b, (k <= String.length b)%nat -> ending k (a ++ b)%string = ending k b.
Proof.
  intros k a b H. unfold ending. rewrite chars_app, rev_app_distr, firstn_app, rev_length, chars_length. replace (k - String.length b)%nat with O by lia.
  now rewrite app_nil_r.
Qed.
Inductive kind := KName | KTrains | KPixels | KFrames | KSources | KSumDet | KRun | KFound | KFile | KDir | KRaw.
Definition same_chars (a b : list ascii) : bool := if list_eq_dec ascii_dec a b then true else false.
Definition kind_of (s : string) : kind :=
  let e := ending 4 s in
  let is t := same_chars e (ending 4 t) in
  if is "ains" then KTrains else if is "xels" then KPixels else if is "otal" then KFrames else if is "rces" then KSources
  else if is "ames" then KSumDet else if is "hers" then KRun else if is "ound" then KFound else if is "file" then KFile else if is "tory" then KDir
  else if is "raw/" then KRaw else KName.
Lemma kind_app : forall a b, (4 <= String.length b)%nat -> kind_of (a ++ b)%string = kind_of b.
Proof. intros a b H. unfold kind_of. rewrite ending_app by exact H. reflexivity. Qed.
Lemma kind_last : forall a c, ~ In c ["s"; "l"; "d"; "e"; "y"; "/"]%char -> kind_of (a ++ String c "")%string = KName.
Proof.
  intros a c H. unfold kind_of, ending. rewrite chars_app, rev_app_distr. cbn [list_ascii_of_string rev app firstn].
  unfold same_chars. repeat match goal with |- context [list_eq_dec ascii_dec ?x ?y] =>
    destruct (list_eq_dec ascii_dec x y) as [X|X]; [cbn in X; injection X as X _; exfalso; apply H; rewrite X; cbn; tauto|clear X] end. reflexivity.
Qed.
Lemma digit_ends : forall s, s <> "" -> all_digits s -> exists a c, s = (a ++ String c "")%string /\ is_digit c = true.
Proof.
  induction s as [|c s IH]; intros N D; [congruence|]. destruct D as [D1 D2]. destruct s as [|b s]; [exists "", c; auto|].
  destruct IH as (a & e & E & F); [discriminate|exact D2|]. exists (String c a), e. rewrite E. auto.
Qed.
Lemma kind_digits : forall p s, s <> "" -> all_digits s -> kind_of (p ++ s)%string = KName.
Proof.
  intros p s N D. destruct (digit_ends N D) as (a & c & -> & H). rewrite <- app_assoc_s. apply kind_last. cbn.
  intros X. repeat (destruct X as [X|X]; [subst c; discriminate H|]). exact X.
Qed.

Definition kind_of_line (l : line) : kind :=
  match l with
  | LName _ _ | LInfo _ => KName
  | LTrains _ => KTrains
  | LPixels _ _ => KPixels
  | LFrames _ _ => KFrames
  | LInst _ | LCtrl _ => KSources
  | LSumDet _ _ _ => KSumDet
  | LRun _ _ _ _ _ => KRun
  | LNote _ NotFound => KFound
  | LNote _ BadFile => KFile
  | LNote _ _ => KDir
  | LRaw _ => KRaw
  end.
Definition named (l : line) : Prop := match l with LName n d => exists i, filename_info n = Ok i /\ d = fn_descr i | _ => True end.
Ltac ends := repeat first [reflexivity | rewrite kind_app by (repeat rewrite length_append; cbn; lia)].
Lemma descr_kind : forall n i p, filename_info n = Ok i -> kind_of (p ++ descr_str (fn_descr i))%string = KName.
Proof.
  intros n i p H. destruct (filename_ok H) as (k & r & s & g & _ & _ & X).
  destruct X as [(num & _ & _ & -> & _)|[(name & num & (_ & _ & N & D & _) & _ & _ & _ & _ & word & _ & ->)|(_ & _ & -> & _)]]; cbn [descr_str].
  - ends.
  - rewrite <- !app_assoc_s. apply kind_digits; assumption.
  - rewrite <- !app_assoc_s. apply kind_last. cbn. intuition discriminate.
Qed.
Lemma nat_kind : forall p n, kind_of (p ++ nat_repr n)%string = KName.
Proof.
  intros p n. unfold nat_repr. destruct (int_expr_repr (Z.of_nat n)) as [m s (N & D & _) _|m s (N & D & _) _]; [apply kind_digits; assumption|].
  change (String "-" s) with ("-" ++ s)%string. rewrite <- app_assoc_s. apply kind_digits; assumption.
Qed.
Lemma first_kind : forall l, named l -> exists a r, lines_of l = a :: r /\ kind_of a = kind_of_line l.
Proof.
  intros [n d|n|a b|p t|s|s|n p t|ind n a b c|i|n nt|n] H; cbn [lines_of kind_of_line]; (eexists _, _; split; [reflexivity|]).
  - destruct H as (i & H & ->). rewrite <- app_assoc_s. exact (descr_kind _ H).
  - rewrite kind_app by (cbn; lia). reflexivity.
  - rewrite <- !app_assoc_s. rewrite kind_app by (cbn; lia). reflexivity.
  - rewrite <- !app_assoc_s. rewrite kind_app by (cbn; lia). reflexivity.
  - rewrite kind_app by (cbn; lia). reflexivity.
  - rewrite kind_app by (cbn; lia). reflexivity.
  - rewrite <- !app_assoc_s. rewrite kind_app by (cbn; lia). reflexivity.
  - rewrite <- !app_assoc_s. rewrite kind_app by (cbn; lia). reflexivity.
  - apply nat_kind.
  - rewrite <- !app_assoc_s. destruct nt; (rewrite kind_app by (cbn; lia)); reflexivity.
  - rewrite kind_app by (cbn; lia). reflexivity.
Qed.

(** ** Reading the lines back *)
Lemma first_char : forall c a a' b b', ~ has_char c a -> ~ has_char c a' -> (a ++ String c b)%string = (a' ++ String c b')%string -> a = a' /\ b = b'.
Proof.
  induction a as [|x a IH]; intros [|x' a'] b b' N N' E; cbn in E.
  - injection E as ->. auto.
  - injection E as <- _. destruct N'. now left.
  - injection E as -> _. destruct N. now left.
  - injection E as -> E. destruct (IH a' b b') as [-> ->]; auto; intros X; [apply N|apply N']; now right.
Qed.
Lemma last_char : forall c a a' b b', ~ has_char c b -> ~ has_char c b' -> (a ++ String c b)%string = (a' ++ String c b')%string -> a = a' /\ b = b'.
Proof.
  intros c a a' b b' N N' E. pose proof (app_eq_split N N' E) as <-. apply app_inj_tail_s in E. auto.
Qed.
Lemma dev_lines_inj : forall l l', map dev_line l = map dev_line l' -> l = l'.
Proof. induction l as [|x l IH]; intros [|y l'] E; try discriminate; [reflexivity|]. cbn [map] in E. injection E as E1 E2. f_equal; [exact E1|auto]. Qed.
Lemma app_space_inj : forall p a b, (a ++ p)%string = (b ++ p)%string -> a = b.
Proof. exact app_inj_tail_s. Qed.

Lemma text_prefix : forall i j r r', text_lines i ++ r = text_lines j ++ r' -> text_lines i = text_lines j /\ r = r'.
Proof.
  intros i j r r' E.
  assert (L : List.length (text_lines i) = List.length (text_lines j)); [|apply app_same_length in E; assumption].
  unfold text_lines in *. rewrite <- !app_assoc in E. cbn [app] in E. injection E as _ _ _ _ _ E.
  assert (EL : List.length (example_lines (in_example i)) = List.length (example_lines (in_example j))).
  { destruct (in_example i) as [[[[n g] s] di]|], (in_example j) as [[[[n' g'] s'] di']|]; try discriminate E; reflexivity. }
  apply app_same_length in E as [_ E]; [|exact EL]. cbn [app] in E. injection E as E1 E. apply int_repr_inj in E1 as [E1 _]; [|reflexivity|reflexivity].
  apply app_same_length in E as [_ E]; [|rewrite !map_length; lia]. cbn [app] in E. injection E as E2 _. apply int_repr_inj in E2 as [E2 _]; [|reflexivity|reflexivity].
  repeat (rewrite app_length; cbn [List.length]). rewrite !map_length. lia.
Qed.
