(** Lemmas on the text of CrystFEL geometry files: what the lines say, and reading their values. *)

From Coq Require Import QArith.
From Verif Require Import Base PyStr M_Stacking S_Stacking S_Open L_Base M_Cxi L_Cxi7 M_Geom S_Geom L_Geom1 L_Geom4 M_Crystfel S_Crystfel L_Crystfel L_Crystfel2
  M_Repr M_InfoText M_CrystText S_CrystText L_CrystText.

Set Implicit Arguments.
Unset Strict Implicit.
Local Open Scope string_scope.
Local Open Scope Z_scope.
Local Open Scope list_scope.

Section Lines.
Variable num_text : Q -> string.
Variable read_num : string -> option Q.
Notation good := (good_number num_text read_num).
Notation vtext := (value_text num_text).
Definition entries_of (f : cffile) : list (string * string) := map (fun kv => (fst kv, vtext (snd kv))) f.
Definition good_values (f : cffile) : Prop := forall k v q, In (k, v) f -> In q (numbers v) -> good q.
Lemma good_app : forall f f', good_values (f ++ f') -> good_values f /\ good_values f'.
Proof. intros f f' H. split; intros k v q I; apply H with k; apply in_app_iff; auto. Qed.
Lemma good_in : forall f k v, good_values f -> In (k, v) f -> forall q, In q (numbers v) -> good q.
Proof. intros f k v H I q. exact (H k v q I). Qed.
Lemma ok_value : forall v, (forall q, In q (numbers v) -> good q) -> match v with CText s => ok_text s | _ => True end -> ok_text (vtext v).
Proof.
  intros [s|z|q|x y z] H K; cbn in *; [exact K|apply ok_word, word_repr|apply ok_word; apply (H q); now left|].
  apply (@ok_vec num_text read_num); [apply H; destruct z; cbn; auto|apply H; destruct z; cbn; auto|]. destruct z; [apply H; cbn; auto|exact I].
Qed.
Lemma says_joined : forall l es, says l es -> says (joined l) es.
Proof. intros [|x l] es H; [|exact H]. destruct H as [_ <-]. apply says_none; [intros []|reflexivity|apply says_nil]. Qed.
Lemma says_block : forall (n : string) (fs : list (string * cfval)), word n ->
  (forall k v, In (k, v) fs -> word k /\ ok_text (vtext v)) ->
  says (map (fun kv => (n ++ (fst kv ++ " = " ++ vtext (snd kv)))%string) fs) (map (fun kv => ((n ++ fst kv)%string, vtext (snd kv))) fs).
Proof. intros n fs W H. apply says_map. intros [k v] I. destruct (H k v I). apply entry_at; assumption. Qed.
Ltac wlit := apply wordb_ok; reflexivity.
Lemma panel_says : forall t p a ss fs dims ps, good_values (frag_to_crystfel t p a ss fs dims ps) ->
  says (panel_lines num_text t p a ss fs dims ps) (entries_of (frag_to_crystfel t p a ss fs dims ps)).
Proof.
  intros t p a ss fs dims ps G. unfold panel_lines, frag_to_crystfel in *. cbv zeta in *. apply good_app in G as [_ G].
  apply says_none; [intros []|reflexivity|]. unfold entries_of. rewrite map_app. apply says_app.
  - apply says_joined. rewrite map_map. apply says_map. intros [i x] _. cbn [fst snd].
    assert (E : dim_text p x = vtext (dim_value p x)) by (destruct x; reflexivity). rewrite E.
    apply (@entry_at (panel_name p a) ("/dim" ++ str_of_int i)%string); [apply word_panel|apply word_app; [wlit|apply word_int]|].
    destruct x; cbn; try (apply ok_word; first [apply word_repr|wlit]).
  - rewrite !vec_value. cbn [map fst snd].
    refine (@says_block (panel_name p a) [("/min_fs", CInt (fst fs)); ("/min_ss", CInt (fst ss)); ("/max_fs", CInt (snd fs - 1)); ("/max_ss", CInt (snd ss - 1));
      ("/fs", format_vec (vdiv (t_fs t) ps)); ("/ss", format_vec (vdiv (t_ss t) ps)); ("/corner_x", CNum (vx (vdiv (t_corner t) ps))); ("/corner_y", CNum (vy (vdiv (t_corner t) ps))); ("/coffset", CNum (vz (vdiv (t_corner t) ps)))] (@word_panel p a) _).
    intros k v I. assert (W : word k).
    { apply wordb_ok. cbn [In] in I. repeat (destruct I as [I|I]; [apply pair_equal_spec in I as [<- _]; reflexivity|]). destruct I. }
    split; [exact W|]. apply ok_value.
    + intros q Hq. assert (J : exists k', In (k', v) [((panel_name p a ++ "/" ++ "min_fs")%string, CInt (fst fs)); ((panel_name p a ++ "/" ++ "min_ss")%string, CInt (fst ss));
         ((panel_name p a ++ "/" ++ "max_fs")%string, CInt (snd fs - 1)); ((panel_name p a ++ "/" ++ "max_ss")%string, CInt (snd ss - 1));
         ((panel_name p a ++ "/" ++ "fs")%string, format_vec (vdiv (t_fs t) ps)); ((panel_name p a ++ "/" ++ "ss")%string, format_vec (vdiv (t_ss t) ps));
         ((panel_name p a ++ "/" ++ "corner_x")%string, CNum (vx (vdiv (t_corner t) ps))); ((panel_name p a ++ "/" ++ "corner_y")%string, CNum (vy (vdiv (t_corner t) ps)));
         ((panel_name p a ++ "/" ++ "coffset")%string, CNum (vz (vdiv (t_corner t) ps)))]).
      { exists (panel_name p a ++ k)%string. cbn [In] in I |- *. repeat (destruct I as [I|I]; [apply pair_equal_spec in I as [<- <-]; intuition reflexivity|]). destruct I. }
      destruct J as [k' J]. exact (G k' v q J Hq).
    + cbn [In] in I. unfold format_vec in I. repeat (destruct I as [I|I]; [apply pair_equal_spec in I as [_ <-]; exact Logic.I|]). destruct I.
Qed.

(** ** Rigid groups *)
Lemma take_parts_In : forall A sizes (l : list A) part x, In part (take_parts sizes l) -> In x part -> In x l.
Proof.
  induction sizes as [|n sizes IH]; intros l part x H I; [destruct H|]. cbn in H. destruct H as [<-|H].
  - rewrite <- (firstn_skipn n l). apply in_app_iff. now left.
  - rewrite <- (firstn_skipn n l). apply in_app_iff. right. exact (IH _ _ _ H I).
Qed.
Lemma split_In : forall A (l : list A) n parts part x, np_array_split l n = Ok parts -> In part parts -> In x part -> In x l.
Proof. intros A l n parts part x H. unfold np_array_split in H. destruct (n <=? 0); [discriminate|]. injection H as <-. apply take_parts_In. Qed.
Lemma zenum_snd : forall A (l : list A) i a, In (i, a) (zenum l) -> In a l.
Proof. intros A l i a H. apply zenum_In in H as [_ H]. exact (nth_error_In _ _ H). Qed.
Lemma group_says : forall nm nt nq f, get_rigid_groups nm nt nq = Ok f -> exists ls, group_lines nm nt nq = Ok ls /\ says ls (entries_of f).
Proof.
  intros nm nt nq f H. unfold get_rigid_groups, group_lines in *. cbv zeta in *.
  set (rg := flat_map (fun p => map (panel_name p) (zr (Z.to_nat nt))) (zr (Z.to_nat nm))) in *.
  assert (W : forall x, In x rg -> word x). { intros x I. apply in_flat_map in I as (p & _ & I). apply in_map_iff in I as (a & <- & _). apply word_panel. }
  destruct (np_array_split rg nq) as [qs|] eqn:E1; [|discriminate]. cbn [bind] in *. destruct (np_array_split rg nm) as [ps|] eqn:E2; [|discriminate]. cbn [bind] in *.
  injection H as <-. eexists. split; [reflexivity|]. unfold entries_of. rewrite !map_app. apply says_none; [intros []|reflexivity|].
  assert (P : forall pre n parts, word pre -> np_array_split rg n = Ok parts ->
     says (map (fun ng => (pre ++ str_of_int (fst ng) ++ " = " ++ py_join "," (snd ng))%string) (zenum parts)) (map (fun ng => ((pre ++ str_of_int (fst ng))%string, py_join "," (snd ng))) (zenum parts))).
  { intros pre n parts Wp E. apply says_map. intros [i part] I. cbn [fst snd]. apply entry_at; [exact Wp|apply word_int|]. apply ok_word, word_join. intros x Hx. apply W. exact (split_In E (zenum_snd I) Hx). }
  apply says_app; [rewrite map_map; refine (@P "rigid_group_q" nq qs _ E1); wlit|].
  apply says_none; [intros []|reflexivity|]. apply says_app; [rewrite map_map; refine (@P "rigid_group_p" nm ps _ E2); wlit|].
  apply says_none; [intros []|reflexivity|]. cbn [map fst snd].
  assert (J : forall pre l, word pre -> word (py_join "," (map (fun q : Z => (pre ++ str_of_int q)%string) l))).
  { intros pre l Wp. apply word_join. intros x I. apply in_map_iff in I as (z & <- & _). apply word_app; [exact Wp|apply word_int]. }
  apply says_one; [apply (@entry_of "rigid_group_collection_quadrants"); [wlit|apply ok_word, (J "q"); wlit]..|].
  apply says_one; [apply (@entry_of "rigid_group_collection_asics"); [wlit|apply ok_word, (J "p"); wlit]..|].
  apply says_none; [intros []|reflexivity|]. apply says_nil.
Qed.

(** ** The header *)
Lemma set_me_says : forall key o, word key -> (forall q, o = Some q -> good q) -> says [set_me num_text key o] (entries_of (opt_line key CNum o)).
Proof.
  intros key [q|] W G; cbn.
  - destruct (@entry_of key (num_text q) W) as [A B]; [apply ok_word; apply (G q eq_refl)|]. apply says_one; [exact A|exact B|apply says_nil].
  - apply says_none; [|reflexivity|apply says_nil]. apply (@one_line_app "; "); [apply one_lineb_ok; reflexivity|]. apply one_line_app; [now apply one_line_word|apply one_lineb_ok; reflexivity].
Qed.
Definition mask_line (args : cf_args) : cffile := match ca_mask args with None => [] | Some "" => [] | Some m => [("mask", CText m)] end.
Lemma path_says : forall args, ok_text (ca_data args) -> (forall m, ca_mask args = Some m -> ok_text m) ->
  says (path_lines args) (entries_of ([("data", CText (ca_data args))] ++ mask_line args)).
Proof.
  intros args H1 H2. unfold path_lines, mask_line. cbn [map fst snd entries_of app].
  assert (K : forall k v, word k -> ok_text v -> one_line (k ++ " = " ++ v ++ " ;") /\ line_entry (k ++ " = " ++ v ++ " ;") = [(k, v)]).
  { intros k v Wk Kv. apply (@entry_semi k v "" Wk Kv). intros []. }
  apply says_one; [apply (K "data"); [wlit|exact H1]..|]. destruct (ca_mask args) as [[|c s]|]; [apply says_nil| |apply says_nil].
  cbn [map fst snd value_text]. apply says_one; [apply (K "mask"); [wlit|now apply H2]..|]. apply says_nil.
Qed.
Lemma header_says : forall version args fr r, one_line version -> ok_text (ca_data args) -> (forall m, ca_mask args = Some m -> ok_text m) -> good r ->
  (forall q, ca_energy args = Some q -> good q) -> (forall q, ca_clen args = Some q -> good q) -> (forall q, ca_adu args = Some q -> good q) ->
  says (header_lines num_text version args ("dim" ++ str_of_int fr ++ " = %") r)
       (entries_of (([("data", CText (ca_data args))] ++ mask_line args) ++ [(("dim" ++ str_of_int fr)%string, CText "%"); ("res", CNum r)] ++
          opt_line "photon_energy" CNum (ca_energy args) ++ opt_line "clen" CNum (ca_clen args) ++ opt_line "adu_per_eV" CNum (ca_adu args))).
Proof.
  intros version args fr r V D M R E C A. unfold header_lines. cbn [app].
  apply says_none; [apply (@one_line_app "; AGIPD-1M geometry file written by karabo_data "); [apply one_lineb_ok; reflexivity|exact V]|reflexivity|].
  do 8 (apply says_none; [apply one_lineb_ok; reflexivity|reflexivity|]).
  change (("data", CText (ca_data args)) :: mask_line args ++ ?X) with ((("data", CText (ca_data args)) :: mask_line args) ++ X).
  unfold entries_of at 1. rewrite map_app. apply says_app; [apply says_joined; now apply path_says|]. cbn [map fst snd value_text].
  apply says_one; [apply (@entry_of ("dim" ++ str_of_int fr) "%"); [apply word_app; [wlit|apply word_int]|apply ok_word; wlit]..|].
  apply says_one; [apply (@entry_semi "res" (num_text r) " pixels per metre"); [wlit|apply ok_word; apply R|apply one_lineb_ok; reflexivity]..|].
  do 2 (apply says_none; [apply one_lineb_ok; reflexivity|reflexivity|]). rewrite !map_app.
  assert (K : forall key o ls es, says [set_me num_text key o] es -> forall es', says ls es' -> says (set_me num_text key o :: ls) (es ++ es')).
  { intros key o ls es H es' H'. exact (@says_app [_] ls es es' H H'). }
  apply K; [apply set_me_says; [wlit|exact E]|]. do 2 (apply says_none; [apply one_lineb_ok; reflexivity|reflexivity|]).
  apply K; [apply set_me_says; [wlit|exact C]|]. do 2 (apply says_none; [apply one_lineb_ok; reflexivity|reflexivity|]).
  apply set_me_says; [wlit|exact A].
Qed.

(** ** The whole text *)
Lemma entries_app : forall f f', entries_of (f ++ f') = entries_of f ++ entries_of f'.
Proof. intros. apply map_app. Qed.
Lemma entries_flat : forall A (F : A -> cffile) l, entries_of (flat_map F l) = flat_map (fun a => entries_of (F a)) l.
Proof. induction l as [|a l IH]; [reflexivity|]. cbn [flat_map]. now rewrite entries_app, IH. Qed.
Lemma good_flat : forall A (F : A -> cffile) l a, good_values (flat_map F l) -> In a l -> good_values (F a).
Proof. intros A F l a H I k v q J. apply (H k). apply in_flat_map. eauto. Qed.
Lemma geom_says : forall version d g dims args f, write_crystfel d g dims args = Ok f -> one_line version -> ok_text (ca_data args) ->
  (forall m, ca_mask args = Some m -> ok_text m) -> good_values f ->
  exists text, geom_text num_text version d g dims args = Ok text /\ text_entries text = entries_of f.
Proof.
  intros version d g dims args f H V D M G. unfold write_crystfel, geom_text in *. cbv zeta in *.
  destruct (filter (fun nd => is_frame (snd nd)) (zenum dims)) as [|fr frs]; [discriminate|].
  destruct (get_rigid_groups (n_modules d) (n_tiles d) 4) as [groups|] eqn:Eg; [|discriminate]. cbn [bind] in H.
  destruct (group_says Eg) as (ls & El & Sg). rewrite El. cbn [bind]. apply Ok_eq in H.
  match type of H with [("data", _)] ++ _ ++ [_; _] ++ _ ++ _ ++ _ ++ _ ++ ?P = f => set (panels := P) in * end.
  fold (mask_line args) in H.
  assert (Hf : f = (([("data", CText (ca_data args))] ++ mask_line args) ++ [(("dim" ++ str_of_int (fst (List.last frs fr)))%string, CText "%"); ("res", CNum (1 / pixel_size d))] ++
          opt_line "photon_energy" CNum (ca_energy args) ++ opt_line "clen" CNum (ca_clen args) ++ opt_line "adu_per_eV" CNum (ca_adu args)) ++ groups ++ panels).
  { rewrite <- H. now rewrite <- !app_assoc. }
  clear H. subst f. eexists. split; [reflexivity|]. apply says_text. rewrite !entries_app.
  apply good_app in G as [G1 G2]. apply good_app in G2 as [_ G2]. apply good_app in G1 as [_ G1].
  apply says_app.
  - rewrite <- !entries_app. apply header_says; try assumption.
    + apply (G1 "res" (CNum (1 / pixel_size d))); [right; left; reflexivity|now left].
    + intros q E. apply (G1 "photon_energy" (CNum q)); [|now left]. rewrite E, !in_app_iff. cbn [opt_line In]. tauto.
    + intros q E. apply (G1 "clen" (CNum q)); [|now left]. rewrite E, !in_app_iff. cbn [opt_line In]. tauto.
    + intros q E. apply (G1 "adu_per_eV" (CNum q)); [|now left]. rewrite E, !in_app_iff. cbn [opt_line In]. tauto.
  - apply says_app; [exact Sg|]. subst panels. rewrite entries_flat. apply says_flat. intros [m mi] I1. apply (good_flat G2) in I1 as G3. cbn [fst snd] in *.
    rewrite entries_flat. apply says_flat. intros [ti tl] I2. apply (good_flat G3) in I2 as G4. cbn [fst snd] in *. destruct (tile_slice d ti) as [ss fs]. now apply panel_says.
Qed.

(** ** Reading the values *)
Definition read_ok (kv : string * cfval) : Prop := exists v', read_value read_num (fst kv) (vtext (snd kv)) = Some v' /\ same_value v' (snd kv).
Lemma read_all : forall f, (forall k v, In (k, v) f -> read_ok (k, v)) -> exists f', read_entries read_num (entries_of f) = Some f' /\ same_lines f' f.
Proof.
  induction f as [|[k v] f IH]; intros H; [exists []; split; [reflexivity|constructor]|].
  destruct (H k v (or_introl eq_refl)) as (v' & E & S). destruct IH as (f' & E' & S'); [intros k' w I; apply H; now right|].
  exists ((k, v') :: f'). cbn [entries_of map read_entries fst snd] in *. fold (entries_of f). rewrite E, E'. split; [reflexivity|]. constructor; [split; [reflexivity|exact S]|exact S'].
Qed.
Lemma digitsb_ok : forall s, all_digits s -> digitsb s = true.
Proof. induction s as [|c s IH]; intros H; [reflexivity|]. cbn in *. destruct H as [-> H]. now rewrite IH. Qed.
Lemma read_nat_ok : forall z, 0 <= z -> read_nat (str_of_int z) = Some z.
Proof.
  intros z Hz. destruct (str_of_int_spec Hz) as (A & B & C). unfold read_nat. rewrite (digitsb_ok A), C. apply String.eqb_neq in B. now rewrite B.
Qed.
Lemma read_int_ok : forall z, read_int (int_repr z) = Some z.
Proof.
  intros z. unfold int_repr. destruct (z <? 0) eqn:E.
  - apply Z.ltb_lt in E. unfold read_int. rewrite read_nat_ok by lia. cbn. f_equal. lia.
  - apply Z.ltb_ge in E. transitivity (read_nat (str_of_int z)); [|exact (read_nat_ok E)]. destruct (str_of_int_spec E) as (A & _). destruct (str_of_int z) as [|c s]; [reflexivity|]. destruct A as [A _].
    destruct c as [[] [] [] [] [] [] [] []]; try reflexivity; discriminate A.
Qed.
Lemma last_part_at : forall n k, ~ has_char "/" n -> last_part (n ++ "/" ++ k) = k.
Proof. intros n k H. unfold last_part. change ("/" ++ k)%string with (String "/" k). now rewrite partition_app. Qed.
Lemma last_part_top : forall k, ~ has_char "/" k -> last_part k = k.
Proof. intros k H. unfold last_part. now rewrite partition_none. Qed.
Lemma read_vec_ok : forall w, (forall q, In q (numbers (format_vec w)) -> good q) -> exists v', read_vec read_num (vtext (format_vec w)) = Some v' /\ same_value v' (format_vec w).
Proof.
  intros w H. unfold format_vec in *. apply read_vec_text.
  - apply H. destruct (Qeq_bool (vz w) 0); cbn; auto.
  - apply H. destruct (Qeq_bool (vz w) 0); cbn; auto.
  - destruct (Qeq_bool (vz w) 0); [exact I|]. apply H. cbn. auto.
Qed.
Lemma read_num_ok : forall q, good q -> exists v', option_map CNum (read_num (num_text q)) = Some v' /\ same_value v' (CNum q).
Proof. intros q (_ & _ & q' & E & K). exists (CNum q'). now rewrite E. Qed.
Lemma no_slash_int : forall z, ~ has_char "/" (str_of_int z).
Proof.
  intros z. destruct (Z_lt_le_dec z 0) as [H|H]; [|apply digits_no; [reflexivity|exact H]].
  replace (str_of_int z) with "0"; [cbn; intuition discriminate|]. unfold str_of_int. rewrite Z.log2_nonpos by lia. cbn [Z.to_nat digits_of].
  replace (z <? 10) with true by (symmetry; apply Z.ltb_lt; lia). unfold digit_char. replace (Z.to_nat z) with 0%nat by lia. reflexivity.
Qed.
Lemma no_slash_panel : forall p a, ~ has_char "/" (panel_name p a).
Proof. intros p a. unfold panel_name. apply no_char_app; [cbn; intuition discriminate|]. apply no_char_app; [apply no_slash_int|]. apply no_char_app; [cbn; intuition discriminate|apply no_slash_int]. Qed.
Lemma panel_read : forall t p a ss fs dims ps k v, good_values (frag_to_crystfel t p a ss fs dims ps) -> In (k, v) (frag_to_crystfel t p a ss fs dims ps) -> read_ok (k, v).
Proof.
  intros t p a ss fs dims ps k v G I. assert (Gv := good_in G I). unfold frag_to_crystfel in I. cbv zeta in I. apply in_app_iff in I as [I|I].
  - apply in_map_iff in I as ([i x] & E & _). cbn [fst snd] in E. apply pair_equal_spec in E as [<- <-]. unfold read_ok, read_value. cbn [fst snd]. rewrite (last_part_at _ (@no_slash_panel p a)).
    cbn [str_in existsb String.eqb Ascii.eqb Bool.eqb append orb starts_with String.prefix].
    destruct x; cbn [dim_value value_text]; try rewrite read_int_ok; cbn; (eexists; split; [reflexivity|reflexivity]).
  - unfold read_ok, read_value. cbn [fst snd In] in *.
    repeat (destruct I as [I|I]; [apply pair_equal_spec in I as [<- <-]; rewrite (last_part_at _ (@no_slash_panel p a)); 
      match goal with |- context [if str_in ?f ?l then _ else _] => let b := eval vm_compute in (str_in f l) in change (str_in f l) with b end; cbv iota;
      try match goal with |- context [if str_in ?f ?l then _ else _] => let b := eval vm_compute in (str_in f l) in change (str_in f l) with b end; cbv iota;
      try match goal with |- context [if str_in ?f ?l then _ else _] => let b := eval vm_compute in (str_in f l) in change (str_in f l) with b end; cbv iota;
      first [ cbn [value_text]; rewrite read_int_ok; eexists; split; reflexivity
            | cbn [value_text]; apply read_num_ok; apply Gv; left; reflexivity
            | apply read_vec_ok; exact Gv ]|]). destruct I.
Qed.
Lemma text_read : forall k s, ~ has_char "/" k -> str_in k ["min_fs"; "min_ss"; "max_fs"; "max_ss"; "res"; "photon_energy"; "clen"; "adu_per_eV"; "corner_x"; "corner_y"; "coffset"; "fs"; "ss"] = false ->
  starts_with "dim" k = false -> read_ok (k, CText s).
Proof.
  intros k s N H S. exists (CText s). split; [|reflexivity]. unfold read_value. cbn [fst snd value_text]. rewrite (last_part_top N).
  cbn [str_in existsb] in *. repeat (apply orb_false_iff in H as [-> H]). cbn [orb]. now rewrite S.
Qed.
Lemma group_read : forall nm nt nq f k v, get_rigid_groups nm nt nq = Ok f -> In (k, v) f -> read_ok (k, v).
Proof.
  intros nm nt nq f k v H I. unfold get_rigid_groups in H. cbv zeta in H. destruct (np_array_split _ nq); [|discriminate]. cbn [bind] in H. destruct (np_array_split _ nm); [|discriminate]. cbn [bind] in H.
  injection H as <-. rewrite !in_app_iff, !in_map_iff in I. destruct I as [((i & x) & E & _)|[((i & x) & E & _)|[E|[E|[]]]]]; apply pair_equal_spec in E as [<- <-].
  - apply text_read; [apply (@no_char_app "/" "rigid_group_q"); [cbn; intuition discriminate|apply no_slash_int]|reflexivity|reflexivity].
  - apply text_read; [apply (@no_char_app "/" "rigid_group_p"); [cbn; intuition discriminate|apply no_slash_int]|reflexivity|reflexivity].
  - apply text_read; [cbn; intuition discriminate|reflexivity|reflexivity].
  - apply text_read; [cbn; intuition discriminate|reflexivity|reflexivity].
Qed.
Lemma file_read : forall d g dims args f, write_crystfel d g dims args = Ok f -> good_values f -> forall k v, In (k, v) f -> read_ok (k, v).
Proof.
  intros d g dims args f H G k v I. assert (Gv := good_in G I). unfold write_crystfel in H. cbv zeta in H.
  destruct (filter (fun nd => is_frame (snd nd)) (zenum dims)) as [|fr frs]; [discriminate|].
  destruct (get_rigid_groups (n_modules d) (n_tiles d) 4) as [groups|] eqn:Eg; [|discriminate]. cbn [bind] in H. apply Ok_eq in H. subst f.
  assert (N : forall key q, ~ has_char "/" key -> str_in key ["min_fs"; "min_ss"; "max_fs"; "max_ss"] = false -> str_in key ["res"; "photon_energy"; "clen"; "adu_per_eV"; "corner_x"; "corner_y"; "coffset"] = true ->
     (k, v) = (key, CNum q) -> read_ok (k, v)).
  { intros key q K1 K2 K3 E. rewrite E. unfold read_ok, read_value. cbn [fst snd]. rewrite (last_part_top K1), K2, K3. cbn [value_text]. apply read_num_ok. apply Gv. injection E as _ ->. now left. }
  assert (O : forall key o, ~ has_char "/" key -> str_in key ["min_fs"; "min_ss"; "max_fs"; "max_ss"] = false -> str_in key ["res"; "photon_energy"; "clen"; "adu_per_eV"; "corner_x"; "corner_y"; "coffset"] = true ->
     In (k, v) (opt_line key CNum o) -> read_ok (k, v)).
  { intros key [q|] K1 K2 K3 J; [|destruct J]. destruct J as [E|[]]. apply (N key q K1 K2 K3). now rewrite E. }
  rewrite !in_app_iff in I. destruct I as [I|[I|[I|[I|[I|[I|[I|I]]]]]]].
  - destruct I as [E|[]]. rewrite <- E. apply text_read; [cbn; intuition discriminate|reflexivity|reflexivity].
  - destruct (ca_mask args) as [[|c s]|]; [destruct I| |destruct I]. destruct I as [E|[]]. rewrite <- E. apply text_read; [cbn; intuition discriminate|reflexivity|reflexivity].
  - destruct I as [E|[E|[]]].
    + rewrite <- E. exists (CText "%"). split; [|reflexivity]. unfold read_value. cbn [fst snd value_text]. rewrite last_part_top; [reflexivity|]. apply (@no_char_app "/" "dim"); [cbn; intuition discriminate|apply no_slash_int].
    + apply (N "res" (1 / pixel_size d)%Q); [cbn; intuition discriminate|reflexivity|reflexivity|now rewrite E].
  - apply (O "photon_energy" (ca_energy args)); [cbn; intuition discriminate|reflexivity|reflexivity|exact I].
  - apply (O "clen" (ca_clen args)); [cbn; intuition discriminate|reflexivity|reflexivity|exact I].
  - apply (O "adu_per_eV" (ca_adu args)); [cbn; intuition discriminate|reflexivity|reflexivity|exact I].
  - exact (group_read Eg I).
  - assert (Gp : good_values (flat_map (fun mi => flat_map (fun ti => let '(ss, fs) := tile_slice d (fst ti) in
          frag_to_crystfel (snd ti) (fst mi) (fst ti) (if existsb is_modno dims then ss else (fst ss + fst mi * mod_ss d, snd ss + fst mi * mod_ss d)) fs (filter (fun nd => negb (is_frame (snd nd))) (zenum dims)) (pixel_size d)) (zenum (snd mi))) (zenum g))).
    { intros k' v' q J. apply (G k'). rewrite !in_app_iff. tauto. }
    apply in_flat_map in I as ([m mi] & I1 & I). apply (good_flat Gp) in I1 as G3. cbn [fst snd] in *. apply in_flat_map in I as ([ti tl] & I2 & I). apply (good_flat G3) in I2 as G4. cbn [fst snd] in *.
    destruct (tile_slice d ti) as [ss fs]. exact (panel_read G4 I).
Qed.
Lemma text_read_back : forall version d g dims args f, write_crystfel d g dims args = Ok f -> one_line version -> ok_text (ca_data args) ->
  (forall m, ca_mask args = Some m -> ok_text m) -> good_values f ->
  exists text f', geom_text num_text version d g dims args = Ok text /\ read_text read_num text = Some f' /\ same_lines f' f.
Proof.
  intros version d g dims args f H V D M G. destruct (geom_says H V D M G) as (text & E1 & E2). destruct (read_all (file_read H G)) as (f' & E3 & S).
  exists text, f'. split; [exact E1|]. split; [|exact S]. unfold read_text. now rewrite E2.
Qed.
End Lines.
