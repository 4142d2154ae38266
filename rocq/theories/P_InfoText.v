(** C98: the text printed by info. *)
From Verif Require Import Base PyStr M_Files M_Machinery M_Reader M_Glob M_Select M_Stacking M_Cxi M_OpenRun M_Repr M_Crystfel M_Info M_InfoText
  S_Open S_Stacking S_Components S_OpenRun S_Repr S_Info S_InfoText
  L_Base L_Cxi7 L_OpenRun L_Crystfel L_Repr L_Frame L_Info Ex_Files P_Info.
Local Open Scope string_scope.
Local Open Scope list_scope.

(** ** Duration *)
Lemma int_expr_split : forall a b x y s t, int_expr a x -> int_expr b y -> (x ++ s)%string = (y ++ t)%string ->
  no_digit_first s -> no_digit_first t -> a = b /\ s = t.
Proof.
  assert (M : forall n x m y s t, numeral x n -> numeral y m -> (String "-" x ++ s)%string = (y ++ t)%string -> False).
  { intros n x m y s t _ (N & A & _) E. destruct y as [|c y]; [congruence|]. cbn in E. injection E as <- _. destruct A as [A _]. discriminate A. }
  intros a b x y s t H1 H2 E Hs Ht. destruct H1 as [n x N1 _|n x N1 _], H2 as [m y N2 _|m y N2 _].
  - destruct N1 as (_ & A1 & <-), N2 as (_ & A2 & <-). destruct (@digits_split x y s t A1 A2 Hs Ht E) as [-> ->]. auto.
  - exfalso. exact (M _ _ _ _ _ _ N2 N1 (eq_sym E)).
  - exfalso. exact (M _ _ _ _ _ _ N1 N2 E).
  - cbn in E. injection E as E. destruct N1 as (_ & A1 & <-), N2 as (_ & A2 & <-). destruct (@digits_split x y s t A1 A2 Hs Ht E) as [-> ->]. auto.
Qed.
Lemma numeral_split : forall a b x y s t, numeral x a -> numeral y b -> (x ++ s)%string = (y ++ t)%string ->
  no_digit_first s -> no_digit_first t -> a = b /\ s = t.
Proof. intros a b x y s t (_ & A1 & <-) (_ & A2 & <-) E Hs Ht. destruct (@digits_split x y s t A1 A2 Hs Ht E) as [-> ->]. auto. Qed.
Lemma numeral_int : forall a b x y s t, numeral x a -> int_expr b y -> (x ++ s)%string = (y ++ t)%string -> no_digit_first s -> no_digit_first t -> s = t.
Proof.
  intros a b x y s t (N & A & _) H E Hs Ht. destruct H as [m y (_ & A2 & _) _|m y _ _].
  - exact (proj2 (@digits_split x y s t A A2 Hs Ht E)).
  - exfalso. destruct x as [|c x]; [congruence|]. cbn in E. injection E as -> _. destruct A as [A _]. discriminate A.
Qed.

(** A text is the text of one duration only. *)
Theorem C98_duration_unique : forall txt a b, duration_text txt a -> duration_text txt b -> a = b.
Proof.
  intros txt a b (d & h & m & s & u & day & hh & mm & ss & frac & R & -> & -> & D & H & (M & _) & (S & _) & F)
    (d' & h' & m' & s' & u' & day' & hh' & mm' & ss' & frac' & R' & -> & E & D' & H' & (M' & _) & (S' & _) & F').
  assert (T : forall m m' s s' u u' mm mm' ss ss' frac frac', numeral mm m -> numeral mm' m' -> numeral ss s -> numeral ss' s' ->
    (u = 0%Z /\ frac = "") \/ (u <> 0%Z /\ exists f, frac = ("." ++ f)%string /\ numeral f u /\ String.length f = 6%nat) ->
    (u' = 0%Z /\ frac' = "") \/ (u' <> 0%Z /\ exists f, frac' = ("." ++ f)%string /\ numeral f u' /\ String.length f = 6%nat) ->
    (mm ++ ":" ++ ss ++ frac)%string = (mm' ++ ":" ++ ss' ++ frac')%string -> m = m' /\ s = s' /\ u = u').
  { clear. intros m m' s s' u u' mm mm' ss ss' frac frac' M M' S S' F F' E.
    destruct (numeral_split _ _ _ _ _ _ M M' E eq_refl eq_refl) as [-> E2]. cbn in E2. injection E2 as E2.
    assert (NF : no_digit_first frac) by (destruct F as [[_ ->]|(_ & f & -> & _)]; reflexivity || exact I).
    assert (NF' : no_digit_first frac') by (destruct F' as [[_ ->]|(_ & f & -> & _)]; reflexivity || exact I).
    destruct (numeral_split _ _ _ _ _ _ S S' E2 NF NF') as [-> E3]. split; [reflexivity|]. split; [reflexivity|].
    destruct F as [[-> ->]|(_ & f & -> & N & _)], F' as [[-> ->]|(_ & f' & -> & N' & _)]; try discriminate; [reflexivity|].
    cbn in E3. injection E3 as ->. destruct N as (_ & _ & <-), N' as (_ & _ & <-). reflexivity. }
  destruct D as [[-> ->]|(_ & n & N & ->)], D' as [[-> ->]|(_ & n' & N' & ->)].
  - cbn [append] in E. destruct (numeral_split _ _ _ _ _ _ H H' E eq_refl eq_refl) as [-> E2]. cbn in E2. injection E2 as E2.
    destruct (T _ _ _ _ _ _ _ _ _ _ _ _ M M' S S' F F' E2) as (-> & -> & ->). reflexivity.
  - exfalso. rewrite app_assoc_s in E. change ("" ++ ?x)%string with x in E. pose proof (numeral_int _ _ _ _ _ _ H N' E eq_refl eq_refl) as X. discriminate X.
  - exfalso. rewrite app_assoc_s in E. change ("" ++ ?x)%string with x in E. pose proof (numeral_int _ _ _ _ _ _ H' N (eq_sym E) eq_refl eq_refl) as X. discriminate X.
  - rewrite !app_assoc_s in E. destruct (int_expr_split _ _ _ _ _ _ N N' E eq_refl eq_refl) as [-> E2].
    cbn in E2. injection E2 as E2. assert (E3 : (hh ++ ":" ++ mm ++ ":" ++ ss ++ frac)%string = (hh' ++ ":" ++ mm' ++ ":" ++ ss' ++ frac')%string).
    { destruct (Z.abs d' =? 1)%Z; cbn in E2; injection E2 as E2; exact E2. }
    destruct (numeral_split _ _ _ _ _ _ H H' E3 eq_refl eq_refl) as [-> E4]. cbn in E4. injection E4 as E4.
    destruct (T _ _ _ _ _ _ _ _ _ _ _ _ M M' S S' F F' E4) as (-> & -> & ->). reflexivity.
Qed.
Print Assumptions C98_duration_unique.

Lemma pad_numeral : forall w z, (0 <= z < 10 ^ Z.of_nat w)%Z -> (1 <= w)%nat -> numeral (py_rjust (str_of_int z) w "0") z /\ String.length (py_rjust (str_of_int z) w "0") = w.
Proof.
  intros w z H Hw. assert (L : (String.length (str_of_int z) <= w)%nat).
  { destruct (str_of_int_spec (proj1 H)) as (A & N & D). destruct (Nat.le_gt_cases (String.length (str_of_int z)) w) as [|G]; [assumption|exfalso].
    assert (z <> 0%Z) by (intros ->; cbn in G; lia).
    assert (F : no_zero_first (str_of_int z)) by (apply str_of_int_first; lia).
    destruct (str_of_int z) as [|c r] eqn:E; [congruence|]. cbn [decimal] in D. destruct A as [A1 A2]. cbn [String.length] in G.
    assert (1 <= digit_val c)%Z.
    { assert (c <> "0"%char) by (intros ->; exact (F r eq_refl)). unfold is_digit, digit_val in *.
      destruct (Nat.eq_dec (nat_of_ascii c) 48) as [X|X]; [exfalso; apply H1; rewrite <- (ascii_nat_embedding c), X; reflexivity|]. cbn [all_digits] in *.
      apply andb_prop in A1 as [A1 _]. apply Nat.leb_le in A1. lia. }
    assert (0 <= decimal r)%Z.
    { clear -A2. induction r as [|ch r IH]; [reflexivity|]. destruct A2 as [B1 B2]. cbn [decimal]. assert (0 <= digit_val ch)%Z by (unfold is_digit, digit_val in *; lia).
      specialize (IH B2). pose proof (Z.pow_nonneg 10 (Z.of_nat (String.length r)) ltac:(lia)). nia. }
    assert (10 ^ Z.of_nat w <= 10 ^ Z.of_nat (String.length r))%Z by (apply Z.pow_le_mono_r; lia). nia. }
  destruct (@rjust_spec w _ _ (@str_of_int_numeral z (proj1 H)) (or_introl L)) as (N & _ & _). split; [exact N|].
  unfold py_rjust. assert (X : forall n s, String.length (str_repeat "0" n ++ s)%string = (n + String.length s)%nat) by (induction n as [|n IH]; intros s; cbn; [reflexivity|now rewrite IH]).
  rewrite X. lia.
Qed.
Lemma int_numeral : forall z, (0 <= z)%Z -> numeral (int_repr z) z.
Proof. intros z H. unfold int_repr. destruct (Z.ltb_spec z 0); [lia|]. now apply str_of_int_numeral. Qed.
(** The duration printed is that of the span. *)
Theorem C98_duration : forall span, duration_text (timedelta_str span) (span * 100000).
Proof.
  intros span. pose proof (Z.mod_pos_bound span 864000 ltac:(lia)) as B. pose proof (Z.div_mod span 864000 ltac:(lia)) as DM.
  set (r := (span mod 864000)%Z) in *. set (secs := (r / 10)%Z). assert (SB : (0 <= secs < 86400)%Z) by (split; [apply Z.div_pos; lia|apply Z.div_lt_upper_bound; lia]).
  assert (MB : (0 <= span mod 10 < 10)%Z) by (apply Z.mod_pos_bound; lia).
  assert (RM : (r mod 10 = span mod 10)%Z) by (rewrite DM; replace (864000 * (span / 864000) + r)%Z with (r + (86400 * (span / 864000)) * 10)%Z by lia; now rewrite Z.mod_add).
  pose proof (Z.div_mod r 10 ltac:(lia)) as R10. fold secs in R10.
  pose proof (Z.div_mod secs 60 ltac:(lia)) as S60. pose proof (Z.mod_pos_bound secs 60 ltac:(lia)).
  pose proof (Z.div_mod (secs / 60) 60 ltac:(lia)) as M60. pose proof (Z.mod_pos_bound (secs / 60) 60 ltac:(lia)).
  assert (H36 : (secs / 60 / 60 = secs / 3600)%Z) by (rewrite Z.div_div by lia; reflexivity).
  assert (HB : (0 <= secs / 3600 < 24)%Z) by (split; [apply Z.div_pos; lia|apply Z.div_lt_upper_bound; lia]).
  exists (span / 864000)%Z, (secs / 3600)%Z, (secs / 60 mod 60)%Z, (secs mod 60)%Z, (span mod 10 * 100000)%Z.
  eexists _, _, _, _, _. split; [lia|]. split; [lia|]. split; [unfold timedelta_str; fold r; fold secs; reflexivity|].
  split; [|split; [|split; [|split]]].
  - destruct (Z.eqb_spec (span / 864000) 0) as [E|E]; [left; split; [exact E|reflexivity]|]. right. split; [exact E|]. eexists. split; [apply int_expr_repr|reflexivity].
  - apply int_numeral. lia.
  - apply pad_numeral; [lia|lia].
  - apply pad_numeral; [lia|lia].
  - destruct (Z.eqb_spec (span mod 10 * 100000) 0) as [E|E]; [left; split; [exact E|reflexivity]|]. right. split; [exact E|]. eexists. split; [reflexivity|]. apply pad_numeral; [lia|lia].
Qed.
Print Assumptions C98_duration.
Example C98_duration_example : timedelta_str 3 = "0:00:00.300000" /\ timedelta_str 36005 = "1:00:00.500000" /\ timedelta_str 864610 = "1 day, 0:01:01" /\
  timedelta_str (3 * 864000) = "3 days, 0:00:00" /\ timedelta_str (-2) = "-1 day, 23:59:59.800000".
Proof. repeat split; vm_compute; reflexivity. Qed.

(** ** The whole text *)
Local Opaque int_repr str_of_int timedelta_str.
Notation nl := (ascii_of_nat 10).
Lemma lines_split : forall l, (forall x, In x l -> one_line x) -> py_split nl (print_lines l) = l ++ [""].
Proof.
  induction l as [|a l IH]; intros H; [reflexivity|]. change (print_lines (a :: l)) with (a ++ String nl (print_lines l))%string.
  rewrite split_app by (apply H; now left). rewrite IH by (intros x Hx; apply H; now right). reflexivity.
Qed.
Lemma lines_inj : forall l l', (forall x, In x l -> one_line x) -> (forall x, In x l' -> one_line x) -> print_lines l = print_lines l' -> l = l'.
Proof.
  intros l l' H H' E. apply (f_equal (py_split nl)) in E. rewrite !lines_split in E by assumption. apply app_inj_tail in E. apply E.
Qed.
Lemma one_line_app : forall a b, one_line a -> one_line b -> one_line (a ++ b)%string.
Proof. intros a b A B H. apply has_char_app in H as [H|H]; auto. Qed.
Lemma one_line_numeral : forall s n, numeral s n -> one_line s.
Proof. intros s n (_ & A & _) H. apply (digits_char A) in H. discriminate H. Qed.
Lemma one_line_int_expr : forall s n, int_expr n s -> one_line s.
Proof. intros s n H. destruct H as [n s H _|n s H _]; [exact (one_line_numeral _ _ H)|]. intros [X|X]; [discriminate X|exact (one_line_numeral _ _ H X)]. Qed.
Lemma one_line_int : forall z, one_line (int_repr z).
Proof. intros z. exact (one_line_int_expr _ _ (int_expr_repr z)). Qed.
Ltac lit := let H := fresh in intros H; vm_compute in H; repeat (destruct H as [H|H]; [discriminate H|]); exact H.
Lemma one_line_join : forall sep l, one_line sep -> (forall x, In x l -> one_line x) -> one_line (py_join sep l).
Proof.
  intros sep l Hs. induction l as [|a l IH]; intros H; [exact (fun X => X)|]. destruct l as [|b l]; [apply H; now left|].
  change (py_join sep (a :: b :: l)) with (a ++ sep ++ py_join sep (b :: l))%string.
  apply one_line_app; [apply H; now left|]. apply one_line_app; [exact Hs|]. apply IH. intros x Hx. apply H. now right.
Qed.
Lemma one_line_duration : forall span, one_line (timedelta_str span).
Proof.
  intros span. destruct (C98_duration span) as (d & h & m & s & u & day & hh & mm & ss & frac & _ & _ & -> & D & H & (M & _) & (S & _) & F).
  apply one_line_app.
  - destruct D as [[_ ->]|(_ & n & N & ->)]; [exact (fun X => X)|]. apply one_line_app; [exact (one_line_int_expr _ _ N)|]. apply one_line_app; [lit|].
    apply one_line_app; [destruct (Z.abs d =? 1)%Z; lit|lit].
  - apply one_line_app; [exact (one_line_numeral _ _ H)|]. apply one_line_app; [lit|]. apply one_line_app; [exact (one_line_numeral _ _ M)|]. apply one_line_app; [lit|].
    apply one_line_app; [exact (one_line_numeral _ _ S)|]. destruct F as [[_ ->]|(_ & f & -> & N & _)]; [exact (fun X => X)|]. apply one_line_app; [lit|exact (one_line_numeral _ _ N)].
Qed.
Lemma app_cancel : forall p a b : string, (p ++ a)%string = (p ++ b)%string -> a = b.
Proof. induction p as [|c p IH]; intros a b E; [exact E|]. cbn in E. injection E as E. auto. Qed.
Lemma int_end : forall a b, int_repr a = int_repr b -> a = b.
Proof. intros a b E. apply (@int_repr_inj a b "" ""); [exact I|exact I|]. now rewrite E. Qed.
Lemma nat_end : forall a b, nat_repr a = nat_repr b -> a = b.
Proof. intros a b E. apply int_end in E. lia. Qed.

Definition dims_tail (l : list Z) : string := match l with [] => " pixels" | _ => (" x " ++ py_join " x " (map int_repr l) ++ " pixels")%string end.
Lemma dims_cons : forall x l, (py_join " x " (map int_repr (x :: l)) ++ " pixels")%string = (int_repr x ++ dims_tail l)%string.
Proof.
  intros x [|y l]; [reflexivity|]. change (py_join " x " (map int_repr (x :: y :: l))) with (int_repr x ++ " x " ++ py_join " x " (map int_repr (y :: l)))%string.
  rewrite !app_assoc_s. reflexivity.
Qed.
Lemma dims_inj : forall l l', (py_join " x " (map int_repr l) ++ " pixels")%string = (py_join " x " (map int_repr l') ++ " pixels")%string -> l = l'.
Proof.
  assert (Nil : forall x l, (py_join " x " (map int_repr []) ++ " pixels")%string = (py_join " x " (map int_repr (x :: l)) ++ " pixels")%string -> False).
  { intros x l E. rewrite dims_cons in E. destruct (int_first x) as (c & r & X & IC). rewrite X in E. cbn in E. injection E as E _. subst c. destruct IC as [IC|IC]; discriminate IC. }
  induction l as [|x l IH]; intros [|y l'] E.
  - reflexivity.
  - destruct (Nil _ _ E).
  - destruct (Nil _ _ (eq_sym E)).
  - rewrite !dims_cons in E. assert (ND : forall l, no_digit_first (dims_tail l)) by (intros [|]; reflexivity).
    destruct (@int_repr_inj _ _ _ _ (ND l) (ND l') E) as [-> E2]. f_equal. destruct l as [|x2 l], l' as [|y2 l']; [reflexivity|discriminate|discriminate|].
    apply IH. apply (app_cancel " x "). exact E2.
Qed.
Lemma names_inj : forall l l', (forall x, In x l -> ~ has_char "," x /\ x <> "") -> (forall x, In x l' -> ~ has_char "," x /\ x <> "") -> py_join "," l = py_join "," l' -> l = l'.
Proof.
  assert (Nil : forall x l, (forall y, In y (x :: l) -> ~ has_char "," y /\ y <> "") -> "" = py_join "," (x :: l) -> False).
  { intros x l H E. destruct l as [|y l].
    - cbn in E. subst x. destruct (H "" (or_introl eq_refl)) as [_ N]. congruence.
    - change (py_join "," (x :: y :: l)) with (x ++ "," ++ py_join "," (y :: l))%string in E. destruct x; discriminate E. }
  intros [|a l] [|b l'] H H' E; [reflexivity|destruct (Nil _ _ H' E)|destruct (Nil _ _ H (eq_sym E))|].
  rewrite <- (@split_join (a :: l)), <- (@split_join (b :: l')), E; [reflexivity|intros x Hx; apply H'; exact Hx|discriminate|intros x Hx; apply H; exact Hx|discriminate].
Qed.

Definition text_lines (i : rinfo) : list string :=
  [("# of trains:    " ++ nat_repr (in_trains i))%string;
      ("Duration:       " ++ timedelta_str (in_span i))%string;
      ("First train ID: " ++ int_repr (in_first i))%string;
      ("Last train ID:  " ++ int_repr (in_last i))%string;
      "";
      (nat_repr (in_modules i) ++ " detector modules (" ++ py_join "," (in_names i) ++ ")")%string] ++
     example_lines (in_example i) ++
     [""; (nat_repr (List.length (in_inst i)) ++ " instrument sources (excluding detectors):")%string] ++
     map source_line (in_inst i) ++
     [""; (nat_repr (List.length (in_ctrl i)) ++ " control sources:")%string] ++
     map source_line (in_ctrl i) ++ [""].
Lemma empty_line : one_line "". Proof. exact (fun X => X). Qed.
Lemma text_one_line : forall i, plain_names i ->
  (forall n g s di, in_example i = Some (n, g, s, di) -> module_named s n g) -> forall x, In x (text_lines i) -> one_line x.
Proof.
  intros i (P1 & _ & P3) HE x Hx. unfold text_lines in Hx.
  assert (SL : forall s, one_line s -> one_line (source_line s)) by (intros s Hs; apply one_line_app; [lit|exact Hs]).
  repeat (apply in_app_or in Hx as [Hx|Hx]).
  - destruct Hx as [<-|[<-|[<-|[<-|[<-|[<-|[]]]]]]].
    + apply one_line_app; [lit|apply one_line_int].
    + apply one_line_app; [lit|apply one_line_duration].
    + apply one_line_app; [lit|apply one_line_int].
    + apply one_line_app; [lit|apply one_line_int].
    + apply empty_line.
    + apply one_line_app; [apply one_line_int|]. apply one_line_app; [lit|]. apply one_line_app; [|lit]. apply one_line_join; [lit|]. intros s Hs. apply P1. auto.
  - destruct (in_example i) as [[[[n g] s] di]|] eqn:E; [|contradiction]. destruct (HE _ _ _ _ eq_refl) as (_ & _ & _ & r & ES).
    assert (one_line n /\ one_line g) as [On Og].
    { subst s. split; intros X; apply P3; apply has_char_app; [now left|right]. apply has_char_app. right. apply has_char_app. now left. }
    destruct Hx as [<-|[<-|[<-|[]]]].
    + apply one_line_app; [lit|]. apply one_line_app; [exact On|]. apply one_line_app; [lit|]. apply one_line_app; [exact Og|]. apply one_line_app; [lit|]. apply one_line_app; [|lit].
      apply one_line_join; [lit|]. intros y Hy. apply in_map_iff in Hy as (z & <- & _). apply one_line_int.
    + apply one_line_app; [lit|exact P3].
    + apply one_line_app; [lit|]. apply one_line_app; [apply one_line_int|]. apply one_line_app; [lit|]. apply one_line_app; [apply one_line_int|lit].
  - destruct Hx as [<-|[<-|[]]]; [apply empty_line|]. apply one_line_app; [apply one_line_int|lit].
  - apply in_map_iff in Hx as (s & <- & Hs). apply SL, P1. auto.
  - destruct Hx as [<-|[<-|[]]]; [apply empty_line|]. apply one_line_app; [apply one_line_int|lit].
  - apply in_map_iff in Hx as (s & <- & Hs). apply SL, P1. auto.
  - destruct Hx as [<-|[]]. apply empty_line.
Qed.
Lemma app_same_length : forall A (a b c d : list A), List.length a = List.length b -> a ++ c = b ++ d -> a = b /\ c = d.
Proof.
  induction a as [|x a IH]; intros [|y b] c d L E; try discriminate; [auto|]. cbn in E. injection E as -> E. destruct (IH b c d) as [-> ->]; auto.
Qed.
Lemma source_lines_inj : forall l l', map source_line l = map source_line l' -> l = l'.
Proof.
  induction l as [|x l IH]; intros [|y l'] E; try discriminate; [reflexivity|]. cbn [map] in E. injection E as E1 E2. f_equal; [|auto].
  exact E1.
Qed.
(** The text tells all the values: two collections with the same text show the same trains, duration, modules and sources. *)
Theorem C98_text : forall (V V' : Type) pop pop' np np' (d : dcoll V) (d' : dcoll V') i j,
  run_info pop np d = Ok i -> run_info pop' np' d' = Ok j -> plain_names i -> plain_names j ->
  info_text i = info_text j -> same_shown i j.
Proof.
  intros V V' pop pop' np np' d d' i j Hi Hj Pi Pj E.
  assert (EX : forall (V : Type) pop np (d : dcoll V) i, run_info pop np d = Ok i ->
    (forall n g s di, in_example i = Some (n, g, s, di) -> module_named s n g) /\ (forall n, In n (in_names i) -> n <> "")).
  { clear. intros V pop np d i H. destruct (@C74_info V pop np d i H) as (_ & _ & _ & _ & _ & _ & _ & _ & _ & _ & _ & N & X). split.
    - intros n g s di E. rewrite E in X. apply X.
    - intros n Hn. apply N in Hn as (s & ds & _ & ((_ & c & x & y & ->) & _) & _). discriminate. }
  destruct (EX _ _ _ _ _ Hi) as [Xi Ni]. destruct (EX _ _ _ _ _ Hj) as [Xj Nj]. clear EX.
  change (info_text i) with (print_lines (text_lines i)) in E. change (info_text j) with (print_lines (text_lines j)) in E.
  apply lines_inj in E; [|apply text_one_line; assumption|apply text_one_line; assumption].
  unfold text_lines in E. cbn [app] in E. injection E as E1 E2 E3 E4 E5 E6.
  apply nat_end in E1. apply int_end in E3, E4.
  assert (in_span i = in_span j) as SP.
  { assert (X : (in_span i * 100000 = in_span j * 100000)%Z); [|lia]. apply (C98_duration_unique (timedelta_str (in_span i))); [apply C98_duration|rewrite E2; apply C98_duration]. }
  unfold nat_repr in E5. apply int_repr_inj in E5 as [E5 E7]; [|reflexivity|reflexivity]. apply (app_cancel " detector modules (") in E7. apply app_inj_tail_s in E7.
  assert (NM : in_names i = in_names j).
  { apply names_inj; [| |exact E7]; intros x Hx; (split; [|auto]); [destruct Pi as (_ & P & _)|destruct Pj as (_ & P & _)]; apply P, Hx. }
  assert (EL : example_lines (in_example i) = example_lines (in_example j) /\
     ([""; (nat_repr (List.length (in_inst i)) ++ " instrument sources (excluding detectors):")%string] ++ map source_line (in_inst i) ++
      [""; (nat_repr (List.length (in_ctrl i)) ++ " control sources:")%string] ++ map source_line (in_ctrl i) ++ [""] =
      [""; (nat_repr (List.length (in_inst j)) ++ " instrument sources (excluding detectors):")%string] ++ map source_line (in_inst j) ++
      [""; (nat_repr (List.length (in_ctrl j)) ++ " control sources:")%string] ++ map source_line (in_ctrl j) ++ [""])).
  { destruct (in_example i) as [[[[n g] s] di]|], (in_example j) as [[[[n' g'] s'] di']|]; try discriminate E6.
    - apply app_same_length in E6; [exact E6|reflexivity].
    - split; [reflexivity|exact E6]. }
  destruct EL as [EL E8]. cbn [app] in E8. injection E8 as E8 E9. apply int_repr_inj in E8 as [E8 _]; [|reflexivity|reflexivity].
  apply app_same_length in E9 as [E9 E10]; [|rewrite !map_length; lia]. apply source_lines_inj in E9.
  cbn [app] in E10. injection E10 as E10 E11. apply int_repr_inj in E10 as [E10 _]; [|reflexivity|reflexivity].
  apply app_same_length in E11 as [E11 _]; [|rewrite !map_length; lia]. apply source_lines_inj in E11.
  unfold same_shown. repeat (split; [first [assumption|lia]|]).
  destruct (in_example i) as [[[[n g] s] di]|] eqn:I1, (in_example j) as [[[[n' g'] s'] di']|] eqn:J1; try discriminate EL; [|exact I].
  cbn [example_lines] in EL. injection EL as L1 L2 L3.
  assert (s = s') as <- by exact L2.
  pose proof (proj2 (@det_groups_spec s n g) (Xi _ _ _ _ eq_refl)) as G1. pose proof (proj2 (@det_groups_spec s n' g') (Xj _ _ _ _ eq_refl)) as G2.
  rewrite G1 in G2. injection G2 as <- <-. repeat (split; [reflexivity|]).
  assert (D : (py_join " x " (map int_repr (di_dims di)) ++ " pixels")%string = (py_join " x " (map int_repr (di_dims di')) ++ " pixels")%string).
  { apply app_cancel in L1. apply (app_cancel " ") in L1. apply app_cancel in L1. apply (app_cancel " : ") in L1. exact L1. }
  apply dims_inj in D. split; [exact D|].
  apply int_repr_inj in L3 as [L3 L4]; [|reflexivity|reflexivity]. split; [exact L3|].
  apply (app_cancel " frames per train, up to ") in L4. apply int_repr_inj in L4 as [L4 _]; [exact L4|reflexivity|reflexivity].
Qed.
Print Assumptions C98_text.
(** Example: the run with one detector module. *)
Definition ex_info : rinfo := mk_rinfo 4 3 20 23 1 ["SPB"] (Some ("SPB", "3", "SPB/DET/3CH0:xtdf", mk_dinfo [512; 128]%Z 2 8 false)) ["CAM:daq"] ["XGM"].
Example C98_example : run_info pop_first true det_run = Ok ex_info /\ plain_names ex_info /\
  py_split nl (info_text ex_info) =
    ["# of trains:    4"; "Duration:       0:00:00.300000"; "First train ID: 20"; "Last train ID:  23"; "";
     "1 detector modules (SPB)"; "  e.g. module SPB 3 : 512 x 128 pixels"; "  SPB/DET/3CH0:xtdf"; "  2 frames per train, up to 8 frames total"; "";
     "1 instrument sources (excluding detectors):"; "  - CAM:daq"; ""; "1 control sources:"; "  - XGM"; ""; ""].
Proof.
  split; [apply C74_example|]. split; [|vm_compute; reflexivity]. split; [|split; [|lit]].
  - intros s Hs. cbn in Hs. destruct Hs as [[<-|[]]|[[<-|[]]|[<-|[]]]]; lit.
  - intros s Hs. cbn in Hs. destruct Hs as [<-|[]]. lit.
Qed.
