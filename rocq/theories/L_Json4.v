(** The text of the cached map is read back. *)
From Verif Require Import Base L_Base PyStr M_FilesMap M_Json S_Json L_Json L_Json2 L_Json3.
Set Implicit Arguments.
Unset Strict Implicit.
Local Open Scope string_scope.
Local Open Scope Z_scope.
Local Open Scope list_scope.

Lemma codes_range : forall s, Forall (fun c => 0 <= c < 256) (codes s).
Proof.
  induction s as [|c s IH]; cbn; constructor; [|exact IH]. unfold ch.
  assert (B := nat_ascii_bounded c). lia.
Qed.
Lemma codes_plain : forall s, plain_str (codes s).
Proof.
  intros s. assert (R := codes_range s). split.
  - eapply Forall_impl; [|exact R]. intros c H. unfold code_point. cbn in H. lia.
  - intros a u v b E Hu _. rewrite E in R. apply Forall_app in R as [_ R]. apply Forall_inv in R. unfold high in Hu. lia.
Qed.
Lemma uncodes_codes : forall s, uncodes (codes s) = Some s.
Proof.
  induction s as [|c s IH]; [reflexivity|]. cbn. assert (B := nat_ascii_bounded c). unfold ch.
  replace (0 <=? Z.of_nat (nat_of_ascii c)) with true by (symmetry; apply Z.leb_le; lia).
  replace (Z.of_nat (nat_of_ascii c) <? 256) with true by (symmetry; apply Z.ltb_lt; lia). cbn.
  rewrite IH, Nat2Z.id, ascii_nat_embedding. reflexivity.
Qed.
Lemma all_some_map : forall A B (f : B -> option A) (g : A -> B) l, (forall x, In x l -> f (g x) = Some x) -> all_some f (map g l) = Some l.
Proof. induction l as [|x l IH]; intros H; cbn; [reflexivity|]. rewrite H by now left. rewrite IH; [reflexivity|]. intros y Hy. apply H. now right. Qed.

Section Map.
Context (frepr : Z -> text) (fparse : text -> Z).

Lemma entry_plain : forall e, float_literal (frepr (fst (fe_stat e))) -> plain (json_of_entry frepr e).
Proof.
  intros e F. apply plain_dict.
  - cbn. repeat (constructor; [cbn; intros H; repeat destruct H as [H|H]; try discriminate H; exact H|]). constructor.
  - intros k v [E|[E|[E|[E|[E|[E|[]]]]]]]; (assert (E1 := f_equal fst E); assert (E2 := f_equal snd E); cbn [fst snd] in E1, E2; rewrite <- E1, <- E2; clear E E1 E2; split; [apply codes_plain|]).
    + apply plain_string, codes_plain.
    + apply plain_float. now left.
    + apply plain_int.
    + apply plain_list. intros w H. apply in_map_iff in H as (z & <- & _). apply plain_int.
    + apply plain_list. intros w H. apply in_map_iff in H as (z & <- & _). apply plain_string, codes_plain.
    + apply plain_list. intros w H. apply in_map_iff in H as (z & <- & _). apply plain_string, codes_plain.
Qed.
Lemma entry_back : forall e, fparse (frepr (fst (fe_stat e))) = fst (fe_stat e) -> entry_of_json fparse (json_of_entry frepr e) = Some e.
Proof.
  intros [n [m z] [t c i]] F. unfold json_of_entry. cbn [fe_name fe_stat fe_info fi_tids fi_ctrl fi_inst fst snd] in *.
  assert (T : as_list as_int (JList (map JInt t)) = Some t) by (apply all_some_map; reflexivity).
  assert (S : forall l, as_list as_str (JList (map (fun s => JStr (codes s)) l)) = Some l) by (intros l; apply all_some_map; intros; apply uncodes_codes).
  assert (N : as_str (JStr (codes n)) = Some n) by apply uncodes_codes.
  assert (S1 := S c). assert (S2 := S i). clear S.
  remember (JStr (codes n)) as vn. remember (JList (map JInt t)) as vt.
  remember (JList (map (fun s => JStr (codes s)) c)) as vc. remember (JList (map (fun s => JStr (codes s)) i)) as vi.
  clear Heqvn Heqvt Heqvc Heqvi. lazy - [as_str as_list as_int]. rewrite N, T, S1, S2, F. reflexivity.
Qed.
Lemma map_plain : forall l, Forall (fun e => float_literal (frepr (fst (fe_stat e)))) l -> plain (JList (map (json_of_entry frepr) l)).
Proof.
  intros l F. apply plain_list. intros v H. apply in_map_iff in H as (e & <- & He). apply entry_plain.
  rewrite Forall_forall in F. now apply F.
Qed.
End Map.
