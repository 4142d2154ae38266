(** Lemmas about the listing of datasets: visiting a file. *)
From Verif Require Import Base PyStr M_Cxi M_Crystfel M_Repr M_H5Index S_Open S_H5Index L_Base L_MakeCxi.
Set Implicit Arguments.
Unset Strict Implicit.
Local Open Scope string_scope.
Local Open Scope list_scope.

Section Visit.
Variable g : h5graph.
Hypothesis WF : well_formed g.

(** Paths from any group. *)
Inductive leadsf (o : nat) : string -> nat -> Prop :=
| lf_first ms n c : nth_error g o = Some (OGroup ms) -> In (n, Hard c) ms -> leadsf o n c
| lf_next p o' ms n c : leadsf o p o' -> nth_error g o' = Some (OGroup ms) -> In (n, Hard c) ms -> leadsf o (p ++ "/" ++ n)%string c.
Lemma leadsf_root p c : leadsf 0 p c <-> leads g p c.
Proof. split; induction 1; [eapply leads_first|eapply leads_next|eapply lf_first|eapply lf_next]; eassumption. Qed.
Lemma leadsf_cons o ms n c p x : nth_error g o = Some (OGroup ms) -> In (n, Hard c) ms -> leadsf c p x -> leadsf o (n ++ "/" ++ p)%string x.
Proof.
  intros H1 H2 H. induction H as [ms' n' c' H3 H4|p o' ms' n' c' H IH H3 H4].
  - eapply lf_next; [eapply lf_first; eassumption|eassumption|eassumption].
  - replace (n ++ "/" ++ p ++ "/" ++ n')%string with ((n ++ "/" ++ p) ++ "/" ++ n')%string; [eapply lf_next; eassumption|].
    rewrite !L_Open.append_assoc_s. reflexivity.
Qed.

Definition children_in (x : nat) (s : list nat) : Prop := forall ms n c, nth_error g x = Some (OGroup ms) -> In (n, Hard c) ms -> In c s.
Definition inv (s : list nat) : Prop := NoDup s /\ forall x, In x s -> (x < List.length g)%nat.
Lemma inv_length s : inv s -> (List.length s <= List.length g)%nat.
Proof.
  intros [N B]. rewrite <- (seq_length (List.length g) 0). apply NoDup_incl_length; [exact N|]. intros x Hx. apply in_seq. specialize (B x Hx). lia.
Qed.
Lemma visit_ok fuel : forall prefix o s, inv s -> (List.length g - List.length s < fuel)%nat ->
  exists out s', visit fuel g prefix o s = Ok (out, s') /\ inv s' /\ Permutation s' (map snd out ++ s) /\ children_in o s' /\
    (forall x, In x (map snd out) -> children_in x s') /\ (forall p c, In (p, c) out -> exists rel, p = (prefix ++ rel)%string /\ leadsf o rel c).
Proof.
  induction fuel as [|fuel IH]; intros prefix o s I F; [lia|]. cbn [visit]. destruct (nth_error g o) as [[ms|sh dt|]|] eqn:EO.
  2,3,4: exists [], s; split; [reflexivity|]; split; [exact I|]; split; [reflexivity|]; split; [intros ms n c H; congruence|]; split; intros; contradiction.
  match goal with |- context [foldM ?f] => set (F0 := f) end.
  assert (K : forall l, incl l ms -> forall out0 s0, inv s0 -> (List.length g - List.length s0 < S fuel)%nat ->
    exists out s', foldM F0 (out0, s0) l = Ok (out0 ++ out, s') /\ inv s' /\ Permutation s' (map snd out ++ s0) /\ (forall n c, In (n, Hard c) l -> In c s') /\
      (forall x, In x (map snd out) -> children_in x s') /\ (forall p c, In (p, c) out -> exists rel, p = (prefix ++ rel)%string /\ leadsf o rel c)).
  { induction l as [|[n k] l IHl]; intros Hl out0 s0 I0 F1.
    - exists [], s0. cbn. rewrite app_nil_r. split; [reflexivity|]. split; [exact I0|]. split; [reflexivity|]. split; [intros ? ? []|]. split; intros; contradiction.
    - assert (Hl' : incl l ms) by (intros x Hx; apply Hl; now right). assert (Hn : In (n, k) ms) by (apply Hl; now left). cbn [foldM].
      destruct k as [c|].
      2:{ change (F0 (out0, s0) (n, Soft)) with (Ok (out0, s0)). cbn [bind]. destruct (IHl Hl' out0 s0 I0 F1) as (out & s' & E & I' & P & C & D & L). exists out, s'. split; [exact E|]. split; [exact I'|]. split; [exact P|].
          split; [|split; [exact D|exact L]]. intros n' c' [H|H]; [discriminate|eauto]. }
      replace (F0 (out0, s0) (n, Hard c)) with (if existsb (Nat.eqb c) s0 then Ok (out0, s0) else let p := (prefix ++ n)%string in let* r := visit fuel g (p ++ "/") c (c :: s0) in Ok (out0 ++ (p, c) :: fst r, snd r)) by reflexivity.
      destruct (existsb (Nat.eqb c) s0) eqn:EX.
      + cbn [bind]. destruct (IHl Hl' out0 s0 I0 F1) as (out & s' & E & I' & P & C & D & L). exists out, s'. split; [exact E|]. split; [exact I'|]. split; [exact P|].
        split; [|split; [exact D|exact L]]. intros n' c' [H|H]; [|eauto]. injection H as <- <-. apply existsb_exists in EX. destruct EX as (y & Hy & Ey). apply Nat.eqb_eq in Ey. subst y.
        eapply Permutation_in; [symmetry; exact P|]. apply in_or_app. now right.
      + assert (NI : ~ In c s0). { intros H. assert (existsb (Nat.eqb c) s0 = true) by (apply existsb_exists; exists c; split; [exact H|apply Nat.eqb_refl]). congruence. }
        assert (Ic : inv (c :: s0)). { destruct I0 as [N0 B0]. split; [now constructor|]. intros x [<-|Hx]; [|now apply B0]. destruct (WF EO) as (_ & _ & W). exact (W n c Hn). }
        assert (Lc := inv_length Ic). cbn [List.length] in Lc.
        destruct (IH ((prefix ++ n) ++ "/")%string c (c :: s0) Ic) as (out1 & s1 & E1 & I1 & P1 & C1 & D1 & L1); [cbn [List.length]; lia|].
        cbv zeta. rewrite E1. cbn [bind fst snd]. assert (LL : (List.length s0 <= List.length s1)%nat) by (rewrite (Permutation_length P1), app_length; cbn; lia).
        destruct (IHl Hl' (out0 ++ ((prefix ++ n)%string, c) :: out1) s1 I1) as (out2 & s2 & E2 & I2 & P2 & C2 & D2 & L2); [lia|].
        exists (((prefix ++ n)%string, c) :: out1 ++ out2), s2. rewrite E2. split; [rewrite <- app_assoc; reflexivity|]. split; [exact I2|].
        assert (SUB : forall x, In x s1 -> In x s2) by (intros x Hx; eapply Permutation_in; [symmetry; exact P2|]; apply in_or_app; now right).
        split; [|split; [|split]].
        * rewrite P2. cbn [map snd]. rewrite map_app. rewrite P1. rewrite !app_assoc. change (c :: s0) with ([c] ++ s0). rewrite (Permutation_app_comm (map snd out2) (map snd out1)).
          rewrite !app_assoc. apply Permutation_app_tail. rewrite Permutation_app_comm. reflexivity.
        * intros n' c' [H|H]; [injection H as <- <-|eauto]. apply SUB. eapply Permutation_in; [symmetry; exact P1|]. apply in_or_app. right. now left.
        * intros x Hx ms' n' c' H1 H2. cbn [map snd] in Hx. rewrite map_app in Hx. destruct Hx as [<-|Hx]; [apply SUB; eapply C1; eassumption|].
          apply in_app_or in Hx. destruct Hx as [Hx|Hx]; [apply SUB; eapply D1; eassumption|eapply D2; eassumption].
        * intros p x [H|H]; [injection H as <- <-; exists n; split; [reflexivity|eapply lf_first; eassumption]|]. apply in_app_or in H. destruct H as [H|H]; [|now apply L2].
          destruct (L1 p x H) as (rel & -> & R). exists (n ++ "/" ++ rel)%string. split; [rewrite !L_Open.append_assoc_s; reflexivity|]. eapply leadsf_cons; eassumption. }
  destruct (K ms (incl_refl _) [] s I F) as (out & s' & E & I' & P & C & D & L). exists out, s'. split; [exact E|]. split; [exact I'|]. split; [exact P|]. split; [|split; [exact D|exact L]].
  intros ms' n c H1 H2. rewrite EO in H1. injection H1 as <-. eauto.
Qed.

(** Every object with a path is met, once, with one of its paths. *)
Lemma visititems_ok : g <> [] -> exists out, visititems g = Ok out /\ NoDup (map snd out) /\ ~ In 0%nat (map snd out) /\
  (forall p c, In (p, c) out -> leads g p c) /\ (forall p c, leads g p c -> c = 0%nat \/ exists p', In (p', c) out).
Proof.
  intros NE. assert (I : inv [0%nat]). { split; [constructor; [intros []|constructor]|]. intros x [<-|[]]. destruct g; [congruence|cbn; lia]. }
  destruct (@visit_ok (S (List.length g)) "" 0 [0%nat] I) as (out & s' & E & [N _] & P & C & D & L); [cbn; lia|].
  exists out. unfold visititems. rewrite E. cbn [bind fst]. assert (ND : NoDup (0%nat :: map snd out)) by (eapply Permutation_NoDup; [|exact N]; rewrite P, Permutation_app_comm; reflexivity). inversion ND as [|? ? ND1 ND2]; subst.
  split; [reflexivity|]. split; [exact ND2|]. split; [exact ND1|].
  split.
    + intros p c H. destruct (L p c H) as (rel & -> & R). cbn. now apply leadsf_root.
    + assert (IS : forall x, In x s' -> x = 0%nat \/ In x (map snd out)) by (intros x Hx; apply (Permutation_in _ P) in Hx; apply in_app_or in Hx; destruct Hx as [Hx|[<-|[]]]; auto).
      assert (A : forall p c, leads g p c -> In c s').
      { intros p c H. induction H as [ms n c H1 H2|p o ms n c H IH H1 H2]; [eapply C; eassumption|]. destruct (IS o IH) as [->|Ho]; [eapply C; eassumption|eapply D; eassumption]. }
      intros p c H. destruct (IS c (A p c H)) as [->|Hc]; [now left|right]. apply in_map_iff in Hc. destruct Hc as ([p' c'] & <- & Hc). eauto.
Qed.
Lemma name_plain o ms n l : nth_error g o = Some (OGroup ms) -> In (n, l) ms -> ~ has_char "/" n /\ n <> "".
Proof. intros H1 H2. destruct (WF H1) as (_ & W & _). destruct (W n l H2) as [W1 W2]. split; [|exact W1]. intros H. apply W2. clear - H. induction n as [|c n IH]; [destruct H|]. destruct H as [->|H]; [now left|right; auto]. Qed.
Lemma member_inj o ms n c c' : nth_error g o = Some (OGroup ms) -> In (n, Hard c) ms -> In (n, Hard c') ms -> c = c'.
Proof.
  intros H H1 H2. destruct (WF H) as (N & _). clear H. induction ms as [|[m k] ms IH]; [destruct H1|]. cbn in N. inversion N as [|? ? N1 N2]; subst.
  destruct H1 as [H1|H1], H2 as [H2|H2].
  - congruence.
  - injection H1 as -> ->. exfalso. apply N1. apply in_map_iff. exists (n, Hard c'). auto.
  - injection H2 as -> ->. exfalso. apply N1. apply in_map_iff. exists (n, Hard c). auto.
  - auto.
Qed.
Lemma slash_app p n : has_char "/" (p ++ "/" ++ n).
Proof. induction p as [|c p IH]; cbn; auto. Qed.
Lemma leads_fun p c : leads g p c -> forall c', leads g p c' -> c = c'.
Proof.
  induction 1 as [ms n c H1 H2|p o ms n c H IH H1 H2]; intros c' H'.
  - inversion H' as [ms' n' c1 H3 H4|p' o' ms' n' c1 H0 H3 H4]; subst.
    + rewrite H1 in H3. injection H3 as <-. eapply member_inj; eassumption.
    + exfalso. destruct (name_plain H1 H2) as [N _]. apply N. apply slash_app.
  - remember (p ++ "/" ++ n)%string as q eqn:Q. inversion H' as [ms' n' c1 H3 H4|p' o' ms' n' c1 H0 H3 H4]; subst.
    + exfalso. destruct (name_plain H3 H4) as [N _]. apply N. apply slash_app.
    + destruct (name_plain H1 H2) as [N _], (name_plain H3 H4) as [N' _]. destruct (@app_slash_inj p' p n' n N' N) as [-> ->]; [assumption|].
      rewrite <- (IH o' H0) in H3. rewrite H1 in H3. injection H3 as <-. eapply member_inj; eassumption.
Qed.
End Visit.
