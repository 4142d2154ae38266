(** Lemmas about the matcher and the places of the cache. *)
From Verif Require Import Base PyStr M_Regex M_Stacking M_OpenRun M_CachePath S_Open S_CachePath L_Base L_Open L_Lsxfel L_MakeCxi.
Set Implicit Arguments.
Unset Strict Implicit.
Local Open Scope string_scope.
Local Open Scope list_scope.

(** What an expression can match: [lang r s rest caps], the text [s] with the groups, before [rest]. *)
Fixpoint all_in (p : ascii -> bool) (s : string) : Prop :=
  match s with "" => True | String c r => p c = true /\ all_in p r end.
Inductive lang : re -> string -> string -> list string -> Prop :=
| l_lit l rest : lang (RLit l) l rest []
| l_plus p s rest : s <> "" -> all_in p s -> lang (RPlus p) s rest []
| l_opt1 a s rest caps : lang a s rest caps -> lang (ROpt a) s rest caps
| l_opt0 a rest : lang (ROpt a) "" rest []
| l_alt1 a b s rest caps : lang a s rest caps -> lang (RAlt a b) s rest caps
| l_alt2 a b s rest caps : lang b s rest caps -> lang (RAlt a b) s rest caps
| l_seq a b s t rest c1 c2 : lang a s (t ++ rest)%string c1 -> lang b t rest c2 -> lang (RSeq a b) (s ++ t)%string rest (c1 ++ c2)
| l_group a s rest caps : lang a s rest caps -> lang (RGroup a) s rest (caps ++ [s])
| l_end0 : lang REnd "" "" []
| l_end1 : lang REnd "" (String newline "") [].

Notation cont := (string -> list string -> option (list string)).

Lemma len_app_s : forall a b : string, String.length (a ++ b)%string = (String.length a + String.length b)%nat.
Proof. induction a as [|c a IH]; intros b; simpl; [reflexivity|]. now rewrite IH. Qed.
Lemma take_app : forall a b, take_s (String.length a) (a ++ b)%string = a.
Proof. induction a as [|c a IH]; intros b; simpl; [now destruct b|]. now rewrite IH. Qed.
Lemma consumed_app : forall a b, consumed (a ++ b)%string b = a.
Proof. intros a b. unfold consumed. rewrite len_app_s. replace (_ - _)%nat with (String.length a) by lia. apply take_app. Qed.
Lemma strip_prefix_app : forall l s rest, strip_prefix l s = Some rest <-> s = (l ++ rest)%string.
Proof.
  induction l as [|c l IH]; intros s rest; simpl; [split; [now injection 1|now intros ->]|].
  destruct s as [|c' s]; [split; discriminate|]. destruct (Ascii.eqb c c') eqn:E.
  - apply Ascii.eqb_eq in E. subst c'. rewrite IH. split; [now intros ->|now injection 1].
  - apply Ascii.eqb_neq in E. split; [discriminate|]. injection 1 as -> _. contradiction.
Qed.
Lemma star_sound : forall p s caps (k : cont) x, m_star p s caps k = Some x ->
  exists a rest, s = (a ++ rest)%string /\ all_in p a /\ k rest caps = Some x.
Proof.
  induction s as [|c s IH]; intros caps k x H; simpl in H; [exists "", ""; simpl; auto|].
  destruct (p c) eqn:E; [|exists "", (String c s); simpl; auto].
  destruct (m_star p s caps k) eqn:Es.
  - injection H as ->. destruct (IH _ _ _ Es) as (a & rest & -> & A & K). exists (String c a), rest. simpl. auto.
  - exists "", (String c s). simpl. auto.
Qed.
Lemma star_complete : forall p a rest caps (k : cont), all_in p a -> k rest caps <> None -> m_star p (a ++ rest)%string caps k <> None.
Proof.
  induction a as [|c a IH]; intros rest caps k H K; simpl.
  - destruct rest as [|c rest]; simpl; [exact K|]. destruct (p c); [|exact K]. now destruct (m_star p rest caps k).
  - destruct H as [-> H]. specialize (IH rest caps k H K). now destruct (m_star p (a ++ rest)%string caps k).
Qed.
Lemma m_sound : forall r s caps (k : cont) x, m_re r s caps k = Some x ->
  exists a rest c, s = (a ++ rest)%string /\ lang r a rest c /\ k rest (caps ++ c) = Some x.
Proof.
  induction r as [l|p|r IH|a IHa b IHb|a IHa b IHb|r IH|]; intros s caps k x H; simpl in H.
  - destruct (strip_prefix l s) as [rest|] eqn:E; [|discriminate]. apply strip_prefix_app in E. subst s. exists l, rest, []. rewrite app_nil_r. repeat split; [constructor|exact H].
  - destruct s as [|c t]; [discriminate|]. destruct (p c) eqn:E; [|discriminate]. apply star_sound in H as (a & rest & -> & A & K).
    exists (String c a), rest, []. rewrite app_nil_r. split; [reflexivity|]. split; [|exact K]. constructor; [discriminate|]. simpl. auto.
  - destruct (m_re r s caps k) as [y|] eqn:E.
    + injection H as ->. destruct (IH _ _ _ _ E) as (a & rest & c & -> & L & K). exists a, rest, c. repeat split; [now constructor|exact K].
    + exists "", s, []. rewrite app_nil_r. repeat split; [apply l_opt0|exact H].
  - destruct (m_re a s caps k) as [y|] eqn:E.
    + injection H as ->. destruct (IHa _ _ _ _ E) as (u & rest & c & -> & L & K). exists u, rest, c. repeat split; [now constructor|exact K].
    + destruct (IHb _ _ _ _ H) as (u & rest & c & -> & L & K). exists u, rest, c. repeat split; [now apply l_alt2|exact K].
  - destruct (IHa _ _ _ _ H) as (u & rest & c & -> & L & K). destruct (IHb _ _ _ _ K) as (v & rest' & c' & -> & L' & K').
    exists (u ++ v)%string, rest', (c ++ c'). rewrite append_assoc_s, app_assoc. repeat split; [now constructor|exact K'].
  - destruct (IH _ _ _ _ H) as (u & rest & c & -> & L & K). rewrite consumed_app in K.
    exists u, rest, (c ++ [u]). rewrite app_assoc. repeat split; [now constructor|exact K].
  - destruct s as [|c [|c' t]]; [exists "", "", []; rewrite app_nil_r; repeat split; [constructor|exact H]| |discriminate].
    destruct (Ascii.eqb c newline) eqn:E; [|discriminate]. apply Ascii.eqb_eq in E. subst c. exists "", (String newline ""), [].
    rewrite app_nil_r. repeat split; [constructor|exact H].
Qed.
Lemma m_complete : forall r a rest c, lang r a rest c -> forall caps (k : cont), k rest (caps ++ c) <> None -> m_re r (a ++ rest)%string caps k <> None.
Proof.
  induction 1 as [l rest|p s rest Hn Hp|a s rest c L IH|a rest|a b s rest c L IH|a b s rest c L IH|a b s t rest c1 c2 L1 IH1 L2 IH2|a s rest c L IH| |]; intros caps k K; simpl.
  - assert (E : strip_prefix l (l ++ rest) = Some rest) by now apply strip_prefix_app. rewrite E. now rewrite app_nil_r in K.
  - destruct s as [|ch s]; [contradiction|]. simpl. destruct Hp as [-> Hp]. rewrite app_nil_r in K. now apply star_complete.
  - specialize (IH caps k K). now destruct (m_re a (s ++ rest)%string caps k).
  - rewrite app_nil_r in K. now destruct (m_re a rest caps k).
  - specialize (IH caps k K). now destruct (m_re a (s ++ rest)%string caps k).
  - specialize (IH caps k K). now destruct (m_re a (s ++ rest)%string caps k).
  - rewrite append_assoc_s. apply IH1. apply IH2. now rewrite <- app_assoc.
  - apply IH. rewrite consumed_app. now rewrite <- app_assoc.
  - now rewrite app_nil_r in K.
  - now rewrite app_nil_r in K.
Qed.

(** The expression of the code. *)
Lemma lit_inv : forall l s rest c, lang (RLit l) s rest c -> s = l /\ c = [].
Proof. inversion 1; auto. Qed.
Lemma plus_inv : forall p s rest c, lang (RPlus p) s rest c -> s <> "" /\ all_in p s /\ c = [].
Proof. inversion 1; auto. Qed.
Lemma seq_inv : forall a b s rest c, lang (RSeq a b) s rest c ->
  exists u v c1 c2, s = (u ++ v)%string /\ c = c1 ++ c2 /\ lang a u (v ++ rest)%string c1 /\ lang b v rest c2.
Proof. inversion 1; subst. eauto 8. Qed.
Lemma group_inv : forall a s rest c, lang (RGroup a) s rest c -> exists c', lang a s rest c' /\ c = c' ++ [s].
Proof. inversion 1; subst. eauto. Qed.
Lemma word_iff : forall c, word_char c = true <-> word_letter c.
Proof.
  intros c. unfold word_char, word_letter, is_digit. rewrite !orb_true_iff, !andb_true_iff, !Nat.leb_le, Nat.eqb_eq. tauto.
Qed.
Lemma all_every : forall p (P : ascii -> Prop) s, (forall c, p c = true <-> P c) -> all_in p s <-> every P s.
Proof. intros p P s H. induction s as [|c s IH]; simpl; [tauto|]. rewrite H, IH. tauto. Qed.
Lemma digit_iff : forall c, is_digit c = true <-> (48 <= nat_of_ascii c <= 57)%nat.
Proof. intros c. unfold is_digit. rewrite andb_true_iff, !Nat.leb_le. tauto. Qed.
Lemma any_iff : forall s, all_in any_char s <-> ~ has_char newline s.
Proof.
  induction s as [|c s IH]; simpl; [tauto|]. unfold any_char at 1. rewrite negb_true_iff, Ascii.eqb_neq, IH. tauto.
Qed.

Definition end_of_run (t : string) : Prop := t = "" \/ t = "/" \/ t = String newline "" \/ t = ("/" ++ String newline "")%string.
Definition groups_of (r : run_id) : list string := [ri_kind r; ri_instrument r; ri_cycle r; ri_proposal r; ri_run r].
Definition looks_like (path root : string) (r : run_id) (t : string) : Prop :=
  path = (root ++ run_names r ++ t)%string /\ root <> "" /\ ~ has_char newline root /\ run_id_ok r /\ end_of_run t.


Lemma run_re_sound : forall path gs, re_match run_re path = Some gs -> exists root r t, looks_like path root r t /\ gs = groups_of r.
Proof.
  intros path gs H. unfold re_match in H. apply m_sound in H as (s & rest & c & -> & L & K). injection K as <-. unfold run_re in L.
  apply seq_inv in L as (root & s1 & c0 & c1 & -> & -> & L0 & L). apply plus_inv in L0 as (R1 & R2 & ->).
  apply seq_inv in L as (x & s2 & c0 & c2 & -> & -> & L0 & L). apply lit_inv in L0 as [-> ->].
  apply seq_inv in L as (kind & s3 & c0 & c3 & -> & -> & L0 & L). apply group_inv in L0 as (c' & L0 & ->).
  assert (Hk : (kind = "raw" \/ kind = "proc") /\ c' = []) by (inversion L0; subst; match goal with H : lang (RLit _) _ _ _ |- _ => apply lit_inv in H as [-> ->] end; auto).
  destruct Hk as [Hk ->]. clear L0.
  apply seq_inv in L as (x & s4 & c0 & c4 & -> & -> & L0 & L). apply lit_inv in L0 as [-> ->].
  apply seq_inv in L as (instr & s5 & c0 & c5 & -> & -> & L0 & L). apply group_inv in L0 as (c' & L0 & ->). apply plus_inv in L0 as (I1 & I2 & ->).
  apply seq_inv in L as (x & s6 & c0 & c6 & -> & -> & L0 & L). apply lit_inv in L0 as [-> ->].
  apply seq_inv in L as (cycle & s7 & c0 & c7 & -> & -> & L0 & L). apply group_inv in L0 as (c' & L0 & ->). apply plus_inv in L0 as (C1 & C2 & ->).
  apply seq_inv in L as (x & s8 & c0 & c8 & -> & -> & L0 & L). apply lit_inv in L0 as [-> ->].
  apply seq_inv in L as (prop & s9 & c0 & c9 & -> & -> & L0 & L). apply group_inv in L0 as (c' & L0 & ->).
  apply seq_inv in L0 as (x & pn & d0 & d1 & -> & -> & L0 & L1). apply lit_inv in L0 as [-> ->]. apply plus_inv in L1 as (P1 & P2 & ->).
  apply seq_inv in L as (x & s10 & c0 & c10 & -> & -> & L0 & L). apply lit_inv in L0 as [-> ->].
  apply seq_inv in L as (run & s11 & c0 & c11 & -> & -> & L0 & L). apply group_inv in L0 as (c' & L0 & ->).
  apply seq_inv in L0 as (x & rn & d0 & d1 & -> & -> & L0 & L1). apply lit_inv in L0 as [-> ->]. apply plus_inv in L1 as (N1 & N2 & ->).
  apply seq_inv in L as (o & e & c0 & c12 & -> & -> & L0 & L).
  assert (Ho : (o = "" \/ o = "/") /\ c0 = []) by (inversion L0; subst; [match goal with H : lang (RLit _) _ _ _ |- _ => apply lit_inv in H as [-> ->] end|]; auto).
  assert (He : e = "" /\ c12 = [] /\ (rest = "" \/ rest = String newline "")) by (inversion L; auto).
  destruct Ho as [Ho ->]. destruct He as (-> & -> & He).
  exists root, (mk_run_id kind instr cycle ("p" ++ pn) ("r" ++ rn)), (o ++ rest)%string. split; [|reflexivity].
  split; [|split; [exact R1|split; [now apply any_iff|split]]].
  - unfold run_names. cbn [ri_kind ri_instrument ri_cycle ri_proposal ri_run]. rewrite !append_assoc_s. reflexivity.
  - split; [exact Hk|]. split; [split; [exact I1|now apply (all_every _ word_iff)]|]. split; [split; [exact C1|now apply (all_every _ word_iff)]|].
    split; [exists pn|exists rn]; (split; [reflexivity|]; split; [assumption|now apply (all_every _ digit_iff)]).
  - unfold end_of_run. destruct Ho as [->| ->], He as [->| ->]; auto.
Qed.

Lemma run_re_complete : forall path root r t, looks_like path root r t -> re_match run_re path <> None.
Proof.
  intros path root [kind instr cycle prop run] t (-> & R1 & R2 & (Hk & [I1 I2] & [C1 C2] & (pn & Ep & P1 & P2) & (rn & Er & N1 & N2)) & Ht).
  cbn [ri_kind ri_instrument ri_cycle ri_proposal ri_run] in *. subst prop run. unfold re_match, run_names. cbn [ri_kind ri_instrument ri_cycle ri_proposal ri_run].
  assert (G : exists o rest, t = (o ++ rest)%string /\ (o = "" \/ o = "/") /\ (rest = "" \/ rest = String newline "")).
  { destruct Ht as [->|[->|[->| ->]]]; [exists "", ""|exists "/", ""|exists "", (String newline "")|exists "/", (String newline "")]; auto. }
  destruct G as (o & rest & -> & Ho & Hr).
  assert (L : lang run_re (root ++ "/" ++ kind ++ "/" ++ instr ++ "/" ++ cycle ++ "/" ++ ("p" ++ pn) ++ "/" ++ ("r" ++ rn) ++ o ++ "")%string rest
     ([] ++ [] ++ ([] ++ [kind]) ++ [] ++ ([] ++ [instr]) ++ [] ++ ([] ++ [cycle]) ++ [] ++ (([] ++ []) ++ ["p" ++ pn]%string) ++ [] ++ (([] ++ []) ++ ["r" ++ rn]%string) ++ [] ++ [])).
  { unfold run_re. apply l_seq. { constructor; [exact R1|now apply any_iff]. }
    apply l_seq; [constructor|]. apply l_seq. { apply l_group. destruct Hk as [->| ->]; [apply l_alt1|apply l_alt2]; constructor. }
    apply l_seq; [constructor|]. apply l_seq. { apply l_group. constructor; [exact I1|now apply (all_every _ word_iff)]. }
    apply l_seq; [constructor|]. apply l_seq. { apply l_group. constructor; [exact C1|now apply (all_every _ word_iff)]. }
    apply l_seq; [constructor|]. apply l_seq. { apply l_group. apply l_seq; [constructor|]. constructor; [exact P1|now apply (all_every _ digit_iff)]. }
    apply l_seq; [constructor|]. apply l_seq. { apply l_group. apply l_seq; [constructor|]. constructor; [exact N1|now apply (all_every _ digit_iff)]. }
    apply l_seq. { destruct Ho as [->| ->]; [apply l_opt0|apply l_opt1; constructor]. }
    destruct Hr as [->| ->]; constructor. }
  assert (M := m_complete L (caps := []) (k := fun _ caps => Some caps)).
  repeat (rewrite append_assoc_s in M; cbn [append] in M). cbn [append] in *. repeat (rewrite append_assoc_s; cbn [append]). apply M. discriminate.
Qed.

(** Names have no slashes. *)
Lemma word_no_slash : forall s, every word_letter s -> ~ has_char "/" s.
Proof.
  induction s as [|c s IH]; simpl; [tauto|]. intros [H1 H2] [->|H]; [|now apply IH].
  unfold word_letter in H1. change (nat_of_ascii "/"%char) with 47%nat in H1. lia.
Qed.
Lemma numbered_no_slash : forall c s, c <> "/"%char -> numbered c s -> ~ has_char "/" s.
Proof.
  intros c s Hc (n & -> & _ & H) [X|X]; [contradiction|]. revert X. apply word_no_slash. revert H.
  induction n as [|d n IH]; simpl; [auto|]. intros [H1 H2]. split; [now left|auto].
Qed.
Lemma kind_no_slash : forall k, k = "raw" \/ k = "proc" -> ~ has_char "/" k.
Proof. intros k [->| ->]; simpl; intuition discriminate. Qed.

(** The names are determined by the path. *)
Lemma run_names_inj : forall root root' r r', run_id_ok r -> run_id_ok r' -> (root ++ run_names r)%string = (root' ++ run_names r')%string -> root = root' /\ r = r'.
Proof.
  intros root root' [k i c p n] [k' i' c' p' n'] (A1 & A2 & A3 & A4 & A5) (B1 & B2 & B3 & B4 & B5) E. unfold run_names in E.
  cbn [ri_kind ri_instrument ri_cycle ri_proposal ri_run] in *.
  assert (N : forall a b c d e f : string, (a ++ "/" ++ b ++ "/" ++ c ++ "/" ++ d ++ "/" ++ e ++ "/" ++ f = ((((a ++ String "/" b) ++ String "/" c) ++ String "/" d) ++ String "/" e) ++ String "/" f)%string).
  { intros. rewrite !append_assoc_s. reflexivity. }
  rewrite !N in E.
  apply app_slash_inj in E as [E ->]; [|eapply numbered_no_slash; [|eassumption]; discriminate|eapply numbered_no_slash; [|eassumption]; discriminate].
  apply app_slash_inj in E as [E ->]; [|eapply numbered_no_slash; [|eassumption]; discriminate|eapply numbered_no_slash; [|eassumption]; discriminate].
  apply app_slash_inj in E as [E ->]; [|apply word_no_slash, A3|apply word_no_slash, B3].
  apply app_slash_inj in E as [E ->]; [|apply word_no_slash, A2|apply word_no_slash, B2].
  apply app_slash_inj in E as [E ->]; [|now apply kind_no_slash|now apply kind_no_slash]. auto.
Qed.

Lemma has_app_s : forall c a b, has_char c (a ++ b)%string <-> has_char c a \/ has_char c b.
Proof. induction a as [|d a IH]; intros b; simpl; [tauto|]. rewrite IH. tauto. Qed.

(** For real paths, the expression tells exactly the runs. *)
Lemma match_real : forall path, real_path path ->
  (forall root r, is_run path root r -> re_match run_re path = Some (groups_of r)) /\
  (forall gs, re_match run_re path = Some gs -> exists root r, is_run path root r /\ gs = groups_of r).
Proof.
  intros path [Hs Hn].
  assert (S : forall gs, re_match run_re path = Some gs -> exists root r, is_run path root r /\ gs = groups_of r).
  { intros gs H. apply run_re_sound in H as (root & r & t & (-> & R1 & R2 & R3 & Ht) & ->). exists root, r. split; [|reflexivity].
    split; [|auto]. f_equal. destruct Ht as [->|[->|[->| ->]]].
    - apply app_nil_s.
    - exfalso. apply (Hs (root ++ run_names r)%string). now rewrite append_assoc_s.
    - exfalso. apply Hn. rewrite !has_app_s. right. right. now left.
    - exfalso. apply Hn. rewrite !has_app_s. right. right. right. now left. }
  split; [|exact S]. intros root r (E & R1 & R3).
  destruct (re_match run_re path) as [gs|] eqn:M.
  - destruct (S gs eq_refl) as (root' & r' & (E' & _ & R3') & ->). rewrite E in E'. apply run_names_inj in E' as [_ <-]; auto.
  - exfalso. revert M. apply run_re_complete with (root := root) (r := r) (t := ""). split; [now rewrite app_nil_s|]. split; [exact R1|].
    split; [|split; [exact R3|now left]]. intros X. apply Hn. rewrite E, has_app_s. now left.
Qed.

(** Joining the names. *)
Lemma join_name : forall a b, a <> "" -> ends_with "/" a = false -> starts_with "/" b = false -> path_join a b = (a ++ "/" ++ b)%string.
Proof. intros a b H1 H2 H3. unfold path_join. rewrite H3, H2. destruct a; [contradiction|reflexivity]. Qed.
Lemma ends_name : forall a b, b <> "" -> ~ has_char "/" b -> ends_with "/" (a ++ b)%string = false.
Proof.
  assert (B : forall b, ~ has_char "/" b -> ends_with "/" b = false).
  { induction b as [|c b IH]; intros H; [reflexivity|]. cbn [has_char] in H. cbn [ends_with]. rewrite IH by tauto. rewrite orb_false_r.
    apply String.eqb_neq. intros E. injection E as E _. apply H. now left. }
  induction a as [|c a IH]; intros b H1 H2; [now apply B|]. change ((String c a ++ b)%string) with (String c (a ++ b)). cbn [ends_with].
  rewrite IH by assumption. rewrite orb_false_r. apply String.eqb_neq. intros E. injection E as _ E. destruct a, b; try discriminate. contradiction.
Qed.
Lemma name_not_absolute : forall b, ~ has_char "/" b -> starts_with "/" b = false.
Proof. intros [|c b] H; [reflexivity|]. cbn [starts_with]. destruct (Ascii.eqb "/" c) eqn:E; [|reflexivity]. apply Ascii.eqb_eq in E. subst. exfalso. apply H. now left. Qed.
Lemma join_names : forall a b c, b <> "" -> ~ has_char "/" b -> ~ has_char "/" c -> path_join (a ++ b)%string c = ((a ++ b) ++ "/" ++ c)%string.
Proof.
  intros a b c H1 H2 H3. apply join_name; [|now apply ends_name|now apply name_not_absolute]. destruct a, b; try discriminate. contradiction.
Qed.
Lemma number_nonempty : forall c s, numbered c s -> s <> "".
Proof. intros c s (n & -> & _). discriminate. Qed.

Lemma scratch_joined : forall r, run_id_ok r -> path_joins SCRATCH_ROOT_DIR [ri_instrument r; ri_cycle r; ri_proposal r; "scratch"] = scratch r.
Proof.
  intros [k i c p n] (A1 & [I1 I2] & [C1 C2] & A4 & A5). unfold path_joins, scratch. cbn [fold_left ri_kind ri_instrument ri_cycle ri_proposal ri_run] in *.
  assert (Np : ~ has_char "/" p) by (eapply numbered_no_slash; [|eassumption]; discriminate).
  assert (Ni := word_no_slash I2). assert (Nc := word_no_slash C2). assert (Ep := number_nonempty A4).
  assert (E0 : path_join SCRATCH_ROOT_DIR i = ("/gpfs/exfel/exp/" ++ i)%string) by (unfold path_join; rewrite name_not_absolute by assumption; reflexivity).
  rewrite E0, join_names by assumption.
  replace (("/gpfs/exfel/exp/" ++ i) ++ "/" ++ c)%string with (("/gpfs/exfel/exp/" ++ i ++ "/") ++ c)%string by now rewrite !append_assoc_s.
  rewrite join_names by assumption.
  replace ((("/gpfs/exfel/exp/" ++ i ++ "/") ++ c) ++ "/" ++ p)%string with (("/gpfs/exfel/exp/" ++ i ++ "/" ++ c ++ "/") ++ p)%string by now rewrite !append_assoc_s.
  rewrite join_names; [|assumption|assumption|cbn; intuition discriminate]. now rewrite !append_assoc_s.
Qed.
Lemma map_joined : forall r, run_id_ok r -> path_joins (scratch r) [".karabo_data_maps"; (ri_kind r ++ "_" ++ ri_run r ++ ".json")%string] = scratch_map r.
Proof.
  intros r (A1 & A2 & A3 & A4 & A5). unfold path_joins, scratch_map. cbn [fold_left].
  assert (Nr : ~ has_char "/" (ri_run r)) by (eapply numbered_no_slash; [|eassumption]; discriminate).
  assert (Nk := kind_no_slash A1).
  assert (E : scratch r = (("/gpfs/exfel/exp/" ++ ri_instrument r ++ "/" ++ ri_cycle r ++ "/" ++ ri_proposal r ++ "/") ++ "scratch")%string) by (unfold scratch; now rewrite !append_assoc_s).
  rewrite E, join_names; [|discriminate|cbn; intuition discriminate|cbn; intuition discriminate]. rewrite <- E.
  change ("/" ++ ".karabo_data_maps")%string with ("/" ++ ".karabo_data_maps")%string.
  replace (scratch r ++ "/" ++ ".karabo_data_maps")%string with ((scratch r ++ "/") ++ ".karabo_data_maps")%string by now rewrite append_assoc_s.
  rewrite join_names; [now rewrite !append_assoc_s|discriminate|cbn; intuition discriminate|].
  rewrite !has_app_s. cbn. intuition discriminate.
Qed.

(** The candidate paths of a real directory. *)
Lemma paths_run : forall isdir dir path root r, real_path path -> is_run path root r ->
  map_paths_for_run isdir dir path = path_join dir "karabo_data_map.json" :: (if isdir (scratch r) then [scratch_map r] else []).
Proof.
  intros isdir dir path root r Hp Hr. unfold map_paths_for_run. rewrite (proj1 (match_real Hp) _ _ Hr). unfold groups_of.
  destruct Hr as (_ & _ & Hr). rewrite (scratch_joined Hr), (map_joined Hr). now destruct (isdir (scratch r)).
Qed.
Lemma paths_other : forall isdir dir path, real_path path -> (forall root r, ~ is_run path root r) ->
  map_paths_for_run isdir dir path = [path_join dir "karabo_data_map.json"].
Proof.
  intros isdir dir path Hp H. unfold map_paths_for_run. destruct (re_match run_re path) as [gs|] eqn:E; [|reflexivity].
  apply (proj2 (match_real Hp)) in E as (root & r & E & _). destruct (H _ _ E).
Qed.

Lemma no_underscore : forall k, k = "raw" \/ k = "proc" -> ~ has_char "_" k.
Proof. intros k [->| ->]; simpl; intuition discriminate. Qed.
Lemma tail_inj : forall a b t, (a ++ t)%string = (b ++ t)%string -> a = b.
Proof.
  induction a as [|c a IH]; intros [|d b] t H; [reflexivity| | |].
  - apply (f_equal String.length) in H. cbn in H. rewrite len_app_s in H. lia.
  - apply (f_equal String.length) in H. cbn in H. rewrite len_app_s in H. lia.
  - cbn in H. injection H as -> H. f_equal. eauto.
Qed.
Lemma front_inj : forall p a b, (p ++ a)%string = (p ++ b)%string -> a = b.
Proof. induction p as [|c p IH]; intros a b H; [exact H|]. cbn in H. injection H as H. auto. Qed.
(** The cache file tells the run. *)
Lemma scratch_map_inj : forall r r', run_id_ok r -> run_id_ok r' -> scratch_map r = scratch_map r' -> r = r'.
Proof.
  intros [k i c p n] [k' i' c' p' n'] (A1 & A2 & A3 & A4 & A5) (B1 & B2 & B3 & B4 & B5) E. unfold scratch_map, scratch in E.
  cbn [ri_kind ri_instrument ri_cycle ri_proposal ri_run] in *.
  assert (N : forall i c p f : string, (("/gpfs/exfel/exp/" ++ i ++ "/" ++ c ++ "/" ++ p ++ "/scratch") ++ "/.karabo_data_maps/" ++ f
     = ((((("/gpfs/exfel/exp" ++ String "/" i) ++ String "/" c) ++ String "/" p) ++ String "/" "scratch") ++ String "/" ".karabo_data_maps") ++ String "/" f)%string).
  { intros. rewrite !append_assoc_s. reflexivity. }
  rewrite !N in E.
  assert (F : forall k n, k = "raw" \/ k = "proc" -> numbered "r" n -> ~ has_char "/" (k ++ "_" ++ n ++ ".json")).
  { intros k0 n0 H1 H2. rewrite !has_app_s. assert (~ has_char "/" n0) by (eapply numbered_no_slash; [|eassumption]; discriminate). assert (X := kind_no_slash H1). cbn. intuition discriminate. }
  apply app_slash_inj in E as [E Ef]; [|now apply F|now apply F].
  apply app_slash_inj in E as [E _]; [|cbn; intuition discriminate|cbn; intuition discriminate].
  apply app_slash_inj in E as [E _]; [|cbn; intuition discriminate|cbn; intuition discriminate].
  apply app_slash_inj in E as [E ->]; [|eapply numbered_no_slash; [|eassumption]; discriminate|eapply numbered_no_slash; [|eassumption]; discriminate].
  apply app_slash_inj in E as [E ->]; [|apply word_no_slash, A3|apply word_no_slash, B3].
  apply app_slash_inj in E as [_ ->]; [|apply word_no_slash, A2|apply word_no_slash, B2].
  assert (k = k' /\ n = n') as [-> ->]; [|reflexivity].
  destruct A1 as [->| ->], B1 as [->| ->]; cbn in Ef; injection Ef as Ef; try discriminate; apply tail_inj in Ef; auto.
Qed.
Lemma local_not_scratch : forall dir r, run_id_ok r -> path_join dir "karabo_data_map.json" <> scratch_map r.
Proof.
  intros dir r (A1 & _ & _ & _ & A5) E.
  assert (L : exists q, (path_join dir "karabo_data_map.json" = q ++ String "/" "karabo_data_map.json" \/ path_join dir "karabo_data_map.json" = "karabo_data_map.json")%string).
  { unfold path_join. cbn [starts_with Ascii.eqb]. change (starts_with "/" "karabo_data_map.json") with false. cbv iota.
    destruct (String.eqb dir "") eqn:E1; [apply String.eqb_eq in E1; subst; exists ""; now right|]. cbn [orb].
    destruct (ends_with "/" dir) eqn:E2; [|exists dir; now left]. apply ends_slash in E2 as [q ->]. exists q. left. now rewrite append_assoc_s. }
  destruct L as (q & [L|L]); rewrite L in E; clear L.
  - unfold scratch_map in E.
    replace (scratch r ++ "/.karabo_data_maps/" ++ ri_kind r ++ "_" ++ ri_run r ++ ".json")%string
      with ((scratch r ++ "/.karabo_data_maps") ++ String "/" (ri_kind r ++ "_" ++ ri_run r ++ ".json"))%string in E by (rewrite append_assoc_s; reflexivity).
    apply app_slash_inj in E as [_ E]; [|cbn; intuition discriminate|].
    + destruct A1 as [A1|A1]; rewrite A1 in E; discriminate.
    + rewrite !has_app_s. assert (~ has_char "/" (ri_run r)) by (eapply numbered_no_slash; [|eassumption]; discriminate). assert (X := kind_no_slash A1). cbn. intuition discriminate.
  - unfold scratch_map, scratch in E. discriminate.
Qed.
