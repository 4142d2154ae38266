(** C103: messages of exceptions. *)
From Verif Require Import Base L_Base PyStr M_Files M_Reader M_Repr M_InfoText M_LsText M_Messages M_Stacking S_Reader S_Open S_Stacking S_OpenRun S_Repr S_Messages
  S_Avail L_Repr L_Frame L_Field L_LsText2 Ex_Files P_InfoText.
Local Open Scope string_scope.
Local Open Scope list_scope.

(** ** Literals *)
Lemma hex_ok : forall k, (k < 16)%nat -> hex_value (hex_digit k) k.
Proof.
  intros k K. do 16 (destruct k as [|k]; [vm_compute; first [left; split; [split|]; solve [repeat constructor] | right; split; [split|]; solve [repeat constructor]]|]). lia.
Qed.
Lemma repr_literal : forall q s, q = "'"%char \/ q = ascii_of_nat 34 -> literal q s (repr_body q s).
Proof.
  intros q s Q. induction s as [|c s IH]; [constructor|]. cbn [repr_body].
  destruct (Ascii.eqb_spec c q) as [->|N]; [exact (lit_quote IH)|]. cbn [orb].
  destruct (Ascii.eqb_spec c "\") as [->|B]; [exact (lit_backslash IH)|].
  destruct (Nat.eqb_spec (nat_of_ascii c) 10) as [E|_].
  { rewrite <- (ascii_nat_embedding c), E. exact (lit_newline IH). }
  destruct (Nat.eqb_spec (nat_of_ascii c) 13) as [E|_].
  { rewrite <- (ascii_nat_embedding c), E. exact (lit_return IH). }
  destruct (Nat.eqb_spec (nat_of_ascii c) 9) as [E|_].
  { rewrite <- (ascii_nat_embedding c), E. exact (lit_tab IH). }
  destruct (Nat.ltb_spec (nat_of_ascii c) 32) as [L|L]; [|destruct (Nat.eqb_spec (nat_of_ascii c) 127) as [E|_]]; cbn [orb].
  3: { apply lit_plain; auto. }
  all: set (n := nat_of_ascii c) in *.
  all: assert (D : n = (16 * (n / 16) + n mod 16)%nat) by (apply Nat.div_mod; discriminate).
  all: assert (M : (n mod 16 < 16)%nat) by (apply Nat.mod_upper_bound; discriminate).
  all: assert (K : (n / 16 < 16)%nat) by (apply Nat.div_lt_upper_bound; lia).
  all: assert (C : c = ascii_of_nat (16 * (n / 16) + n mod 16)) by (rewrite <- D; symmetry; apply ascii_nat_embedding).
  all: rewrite C at 1; apply (lit_hex (hex_ok _ K) (hex_ok _ M)); [lia|exact IH].
Qed.
Lemma repr_is_literal : forall s, string_literal s (str_repr s).
Proof.
  intros s. unfold str_repr, string_literal. eexists _, _. split; [|split; [|reflexivity]].
  - destruct (_ && _); [right|left]; reflexivity.
  - apply repr_literal. destruct (_ && _); [right|left]; reflexivity.
Qed.
Lemma hex_fun : forall c m n, hex_value c m -> hex_value c n -> m = n.
Proof. intros c m n [[A ->]|[A ->]] [[B ->]|[B ->]]; lia. Qed.
Lemma literal_inj : forall q s x, q = "'"%char \/ q = ascii_of_nat 34 -> literal q s x -> forall s' x' r r', literal q s' x' ->
  (x ++ String q r)%string = (x' ++ String q r')%string -> s = s' /\ r = r'.
Proof.
  intros q s x Q H. assert (QB : q <> backslash) by (destruct Q as [->| ->]; discriminate).
  assert (QN : q <> "n"%char /\ q <> "r"%char /\ q <> "t"%char /\ q <> "x"%char) by (destruct Q as [->| ->]; repeat split; discriminate). destruct QN as (Qn & Qr & Qt & Qx).
  induction H as [|c s x C1 C2 C3 H IH|s x H IH|s x H IH|s x H IH|s x H IH|s x H IH|a b m n s x A B L H IH]; intros s' x' r r' H' E;
    destruct H' as [|c' s' x' D1 D2 D3 H'|s' x' H'|s' x' H'|s' x' H'|s' x' H'|s' x' H'|a' b' m' n' s' x' A' B' L' H']; cbn [append] in E;
    try (exfalso; injection E; intros; congruence); try (exfalso; injection E as E1 E2; discriminate E2).
  all: try (injection E; intros; subst; solve [auto]).
  all: try (injection E as E; destruct (IH _ _ _ _ H' E) as [-> ->]; auto).
  - injection E as -> E. destruct (IH _ _ _ _ H' E) as [-> ->]. auto.
  - injection E as -> -> E. rewrite (hex_fun _ _ _ A A'), (hex_fun _ _ _ B B'). destruct (IH _ _ _ _ H' E) as [-> ->]. auto.
Qed.
Lemma string_literal_inj : forall s t s' t' r r', string_literal s t -> string_literal s' t' -> (t ++ r)%string = (t' ++ r')%string -> s = s' /\ r = r'.
Proof.
  intros s t s' t' r r' (q & x & Q & L & ->) (q' & x' & Q' & L' & ->) E. cbn [append] in E. injection E as <- E.
  rewrite !app_assoc_s in E. cbn [append] in E. exact (@literal_inj _ _ _ Q L _ _ _ _ L' E).
Qed.

(** ** Theorems *)

(** Asking for a field: the exception names what is missing, and only what is missing. *)
Theorem C103_field : forall V (d : dcoll V) s k,
  (~ In s (dc_sources d) -> check_field d s k = Err ESourceNameError /\ exists m, check_field_msg d s k = Ok (Some m) /\ names_source s m) /\
  (forall ks, In s (dc_sources d) -> keys_for_source d s = Ok ks -> ~ In k ks ->
     check_field d s k = Err EPropertyNameError /\ exists m, check_field_msg d s k = Ok (Some m) /\ names_property k s m) /\
  (available d s k -> check_field d s k = Ok tt /\ check_field_msg d s k = Ok None).
Proof.
  intros V d s k. split; [|split].
  - intros H. split; [now apply check_field_source_err|]. exists (source_error_str s). split.
    + unfold check_field_msg. destruct (str_in s (dc_sources d)) eqn:E; [|reflexivity]. apply str_in_iff in E. contradiction.
    + exists (str_repr s). split; [apply repr_is_literal|reflexivity].
  - intros ks Hs Hk Hn. split; [eapply check_field_key_err; eassumption|]. exists (property_error_str k s). split.
    + unfold check_field_msg. apply str_in_iff in Hs. rewrite Hs. cbn [negb]. rewrite Hk. cbn [bind].
      destruct (str_in k ks) eqn:E; [|reflexivity]. apply str_in_iff in E. contradiction.
    + exists (str_repr k), (str_repr s). repeat (split; [apply repr_is_literal|]). reflexivity.
  - intros H. split; [now apply check_field_iff|]. destruct H as (Hs & ks & Hk & Hin). unfold check_field_msg.
    apply str_in_iff in Hs, Hin. rewrite Hs. cbn [negb]. rewrite Hk. cbn [bind]. now rewrite Hin.
Qed.
Print Assumptions C103_field.

(** Asking for a train. *)
Theorem C103_train : forall V (d : dcoll V) t,
  (~ In t (dc_tids d) -> train_from_id d t = Err ETrainIDError /\ exists m, train_msg d t = Some m /\ names_train t m) /\
  (In t (dc_tids d) -> train_msg d t = None).
Proof.
  intros V d t. unfold train_msg, train_from_id. destruct (z_in t (dc_tids d)) eqn:E; cbn [negb].
  - apply z_in_iff in E. split; [contradiction|reflexivity].
  - assert (N : ~ In t (dc_tids d)) by (intros H; apply z_in_iff in H; congruence).
    split; [|contradiction]. intros _. split; [reflexivity|]. exists (train_error_str t). split; [reflexivity|].
    exists (int_repr t). split; [apply int_expr_repr|reflexivity].
Qed.
Print Assumptions C103_train.

(** A message tells what was asked for: messages for different names or trains differ. *)
Theorem C103_unique :
  (forall s s' m, names_source s m -> names_source s' m -> s = s') /\
  (forall k s k' s' m, names_property k s m -> names_property k' s' m -> k = k' /\ s = s') /\
  (forall t t' m, names_train t m -> names_train t' m -> t = t') /\
  (forall s k s' t m, ~ (names_source s m /\ names_property k s' m) /\ ~ (names_source s m /\ names_train t m) /\ ~ (names_property k s' m /\ names_train t m)).
Proof.
  split; [|split; [|split]].
  - intros s s' m (x & L & ->) (y & L' & E). apply app_cancel in E. exact (proj1 (@string_literal_inj _ _ _ _ _ _ L L' E)).
  - intros k s k' s' m (x & y & L & M & ->) (x' & y' & L' & M' & E). apply app_cancel in E.
    destruct (@string_literal_inj _ _ _ _ _ _ L L' E) as [-> E2]. clear E. rename E2 into E. split; [reflexivity|]. apply app_cancel in E.
    apply (@string_literal_inj s y s' y' "" ""); [assumption..|now rewrite E].
  - intros t t' m (x & L & ->) (y & L' & E). apply app_cancel in E. exact (proj1 (@int_expr_split _ _ _ _ _ _ L L' E eq_refl eq_refl)).
  - intros s k s' t m. repeat split; intros [A B];
      repeat match goal with H : names_source _ _ |- _ => destruct H as (? & _ & ->) | H : names_property _ _ _ |- _ => destruct H as (? & ? & _ & _ & H) | H : names_train _ _ |- _ => destruct H as (? & _ & H) end;
      subst; discriminate.
Qed.
Print Assumptions C103_unique.

(** Names are in single quotes, unless they contain a single and no double quote. *)
Theorem C103_quotes : forall s, (exists r, str_repr s = String (ascii_of_nat 34) r) <-> has_char "'" s /\ ~ has_char (ascii_of_nat 34) s.
Proof.
  intros s. unfold str_repr, single_quote, double_quote. rewrite <- !char_in_iff. destruct (char_in "'" s), (char_in (ascii_of_nat 34) s); cbn [andb negb]; split.
  all: try (intros (r & E); discriminate E). all: try (intros [A B]; congruence). all: try (intros _; eexists; reflexivity).
  intros _. split; [reflexivity|discriminate].
Qed.
Print Assumptions C103_quotes.

Example C103_example :
  check_field_msg run "it's" "a.value" = Ok (Some (source_error_str "it's")) /\
  source_error_str "it's" = ("This data has no source named " ++ String (ascii_of_nat 34) ("it's" ++ String (ascii_of_nat 34) ".") ++
     String (ascii_of_nat 10) "See data.all_sources for available sources.")%string /\
  check_field_msg run "XGM" "no.such" = Ok (Some "No property 'no.such' for source 'XGM'") /\
  train_msg run 99 = Some "Train ID 99 not found in this data" /\ train_msg run 10 = None.
Proof. repeat split; vm_compute; reflexivity. Qed.
