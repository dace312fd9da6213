(** * Partial loading of the beginning of a file *)
From Coq Require Import String Ascii List ZArith Bool Lia.
From Verif Require Import Prelude PreludeFacts NdArray Gkyl_Model Gkyl_Spec Gkyl_Proofs Cut_Proofs.
Import ListNotations.
Open Scope list_scope. Open Scope Z_scope.

Section PartPrefix.
  Context (p r : list Z) {F : Type} (fo : fops F) (w : nat) (c0 nc c1 : Z).
  Context (Hw : (0 < w)%nat) (Hc0 : 0 <= c0) (Hc1 : 0 <= c1) (Hnc : 1 <= nc).
  Let f := p ++ r.

  (** What one dimension of the selection may be. *)
  Definition okdim (t : Z * Z * Z * Z) : Prop :=
    let '(s0, n, s1, q) := t in 0 <= s0 /\ 1 <= n /\ 0 <= s1 /\ 0 <= q.

  (** The two readings: equal, or the last [nc] values of the shorter file are
      all the first of them. *)
  Definition same_but_last (l l' : list F) : Prop :=
    l = l' \/ exists a x t, l = a ++ repeat x (S (length t)) /\ l' = a ++ x :: t /\ Z.of_nat (S (length t)) = nc.

  Lemma past_fails dims : forall off x, Forall okdim dims -> Z.of_nat (length p) <= off -> get_block fo p w dims c0 nc c1 off <> Ok x.
  Proof.
    induction dims as [|[[[s0 n] s1] q] dims IH]; intros off x Hd Ho H; cbn [get_block] in H.
    - apply bind_ok in H as (items & Ei & H). destruct (fromfile_pre p r _ _ _ _ Hw Ei) as (_ & _ & Hl & _).
      destruct items as [|i items]; [|specialize (Hl ltac:(discriminate)); cbn [length] in Hl; nia].
      cbn [List.map length] in H. destruct (Z.eqb_spec (Z.of_nat 0) nc); [lia|discriminate].
    - inversion_clear Hd as [|? ? Hk Hd']. unfold okdim in Hk. destruct Hk as (H0 & H1 & H2 & H3). apply bind_ok in H as (y & Ey & _).
      destruct (Z.to_nat n) as [|k] eqn:En; [lia|]. apply bind_ok in Ey as (a & Ea & _). eapply IH; [exact Hd'| |exact Ea]. nia.
  Qed.

  Lemma block_pre dims : forall off o l o' l', Forall okdim dims -> 
    get_block fo p w dims c0 nc c1 off = Ok (o, l) -> get_block fo f w dims c0 nc c1 off = Ok (o', l') ->
    o' = o /\ (l = l' \/ Z.of_nat (length p) <= o /\ exists a x t, l = a ++ repeat x (S (length t)) /\ l' = a ++ x :: t /\ Z.of_nat (S (length t)) = nc).
  Proof.
    induction dims as [|[[[s0 n] s1] q] dims IH]; intros off o l o' l' Hd H H'; cbn [get_block] in H, H'.
    - apply bind_ok in H as (items & Ei & H). apply bind_ok in H as (ys & Ey & H). injection H as <- <-.
      apply bind_ok in H' as (items' & Ei' & H'). apply bind_ok in H' as (ys' & Ey' & H'). injection H' as <- <-. split; [reflexivity|].
      destruct (fromfile_pre p r _ _ _ _ Hw Ei) as (_ & (t & Et) & _ & Hle & Hlt). fold f in Et. rewrite Et in Ei'. injection Ei' as <-.
      rewrite map_length in Ey, Ey'. rewrite app_length in Ey'. destruct (Z.eqb_spec (Z.of_nat (length items)) nc) as [E|E].
      + pose proof (fromfile_same p r w nc _ items Hw ltac:(lia) Ei E) as Es. fold f in Es. rewrite Es in Et. injection Et as Et. rewrite <- (app_nil_r items) in Et at 1. apply app_inv_head in Et as <-.
        rewrite app_nil_r in Ey'. cbn [length] in Ey'. destruct (Z.eqb_spec (Z.of_nat (length items + 0)) nc); [|lia]. injection Ey as <-. injection Ey' as <-. now left.
      + destruct items as [|i [|j items]]; [discriminate| |discriminate]. cbn [List.map length app] in *. injection Ey as <-.
        destruct (Z.eqb_spec (Z.of_nat (1 + length t)) nc) as [E'|E'].
        * injection Ey' as <-. right. split; [specialize (Hlt ltac:(lia)); nia|]. exists [], (fdec fo w i), (List.map (fdec fo w) t). rewrite map_length.
          replace (S (length t)) with (Z.to_nat nc) by lia. cbn [app]. split; [reflexivity|]. split; [reflexivity|]. lia.
        * destruct t; [|discriminate]. injection Ey' as <-. now left.
    - inversion_clear Hd as [|? ? Hk Hd']. unfold okdim in Hk. destruct Hk as (H0 & H1 & H2 & H3). apply bind_ok in H as ((b1 & b2) & Eb & H). injection H as <- <-.
      apply bind_ok in H' as ((b1' & b2') & Eb' & H'). injection H' as <- <-. cbn [fst snd].
      cut (b1' = b1 /\ (b2 = b2' \/ Z.of_nat (length p) <= b1 /\ exists a x t, b2 = a ++ repeat x (S (length t)) /\ b2' = a ++ x :: t /\ Z.of_nat (S (length t)) = nc)).
      { intros (-> & C). split; [reflexivity|]. destruct C as [C|(C & D)]; [now left|]. right. split; [nia|exact D]. }
      revert Eb Eb'. generalize (off + s0 * q * Z.of_nat w) as u. clear H1. generalize (Z.to_nat n) as k. intros k. clear off. revert b1 b2 b1' b2'.
      induction k as [|k IHk]; intros b1 b2 b1' b2' u Eb Eb'.
      + injection Eb as <- <-. injection Eb' as <- <-. split; [reflexivity|now left].
      + apply bind_ok in Eb as ((a1 & a2) & Ea & Eb). apply bind_ok in Eb as ((e1 & e2) & Ee & Eb). injection Eb as <- <-.
        apply bind_ok in Eb' as ((a1' & a2') & Ea' & Eb'). apply bind_ok in Eb' as ((e1' & e2') & Ee' & Eb'). injection Eb' as <- <-. cbn [fst snd] in *.
        destruct (IH _ _ _ _ _ Hd' Ea Ea') as (-> & [<-|(La & B)]).
        * destruct (IHk _ _ _ _ _ Ee Ee') as (-> & [<-|(Lb & a & x & t & -> & -> & Lt)]); (split; [reflexivity|]); [now left|].
          right. split; [exact Lb|]. exists (a2 ++ a), x, t. rewrite !app_assoc. auto.
        * destruct k as [|k].
          -- injection Ee as <- <-. injection Ee' as <- <-. split; [reflexivity|]. right. rewrite !app_nil_r. auto.
          -- exfalso. apply bind_ok in Ee as (z & Ez & _). exact (past_fails dims a1 z Hd' La Ez).
  Qed.
End PartPrefix.

Lemma zprod_nonneg l : Forall (fun n => 0 <= n) l -> 0 <= zprod l.
Proof. induction 1 as [|n l H _ IH]; cbn [zprod fold_right]; [lia|]. fold (zprod l). nia. Qed.

Lemma zprod_pos l : Forall (fun n => 1 <= n) l -> 1 <= zprod l.
Proof. induction 1 as [|n l H _ IH]; cbn [zprod fold_right]; [lia|]. fold (zprod l). nia. Qed.

Lemma tails_nonneg l : Forall (fun n => 0 <= n) l -> Forall (fun n => 0 <= n) (tails_prod l).
Proof. induction 1 as [|n l H Hl IH]; cbn [tails_prod]; constructor; [now apply zprod_nonneg|exact IH]. Qed.

Lemma dims_ok {A} (g : A -> Z * Z) (doff : list A) : forall cells ps, (forall a, In a doff -> 0 <= fst (g a) /\ 0 <= snd (g a)) ->
  Forall (fun c => 1 <= c) cells -> Forall (fun n => 0 <= n) ps ->
  Forall okdim (map2 (fun gc q => (fst (fst gc), snd gc, snd (fst gc), q)) (combine (List.map g doff) cells) ps).
Proof.
  induction doff as [|a doff IH]; intros [|c cells] [|q ps] Hg Hc Hp; cbn [List.map combine map2]; try constructor.
  - cbn [fst snd]. inversion Hc; inversion Hp; subst. destruct (Hg a (or_introl eq_refl)). unfold okdim. auto.
  - inversion Hc; inversion Hp; subst. apply IH; auto. intros b Hb. apply Hg. now right.
Qed.

Section DataPrefix.
  Context (p r : list Z) {F : Type} (fo : fops F).

  Lemma map2_map2 {A B C} (h : A -> B -> C) l : forall m, map2 h l m = List.map (fun ab => h (fst ab) (snd ab)) (combine l m).
  Proof. induction l as [|a l IH]; intros [|b m]; cbn [map2 combine List.map]; [reflexivity..|]. now rewrite IH. Qed.

  (** Reading a selection of a field from the beginning of the file. *)
  Lemma data_part_pre d w count off b sl o b' sl' o' : (0 < w)%nat -> Forall (fun n => 0 <= n) (d_orig d) -> 0 <= d_orig_nc d ->
    get_data fo p true d w count None off = Ok (b, sl, o) -> get_data fo (p ++ r) true d w count None off = Ok (b', sl', o') ->
    match b, b' with
    | None, None => True
    | Some a, Some a' => shape a = shape a' /\ same_but_last (d_nc d) (flat a) (flat a')
    | _, _ => False
    end.
  Proof.
    intros Hw Ho Hon H H'. unfold get_data in H, H'. cbn [negb] in H, H'.
    destruct (existsb _ _) eqn:Ex. { injection H as <- _ _. injection H' as <- _ _. exact I. }
    destruct (Z.ltb_spec (zprod (map2 (fun n g => n - snd g - fst g) (map2 (fun l u => u - l + 1) (List.map (fun _ => 1) (d_orig d)) (d_orig d))
       (map2 (fun gn lu => (clip 0 (fst (fst gn) - (fst lu - 1)), clip 0 (snd (fst gn) - (snd gn - snd lu)))) (combine (d_goff d) (d_orig d)) (combine (List.map (fun _ => 1) (d_orig d)) (d_orig d)))) * d_nc d) 0) as [|Hz]; [discriminate|].
    apply bind_ok in H as (y & Ey & H). apply bind_ok in H as (a & Ea & H). injection H as <- _ _.
    apply bind_ok in H' as (y' & Ey' & H'). apply bind_ok in H' as (a' & Ea' & H'). injection H' as <- _ _.
    assert (Hcells : Forall (fun c => 1 <= c) (map2 (fun n g => n - snd g - fst g) (map2 (fun l u => u - l + 1) (List.map (fun _ => 1) (d_orig d)) (d_orig d))
       (map2 (fun gn lu => (clip 0 (fst (fst gn) - (fst lu - 1)), clip 0 (snd (fst gn) - (snd gn - snd lu)))) (combine (d_goff d) (d_orig d)) (combine (List.map (fun _ => 1) (d_orig d)) (d_orig d))))).
    { apply Forall_forall. intros c Hc. destruct (Z.ltb_spec c 1) as [L|L]; [|exact L]. exfalso.
      enough (E : existsb (fun c => c <? 1) (map2 (fun n g => n - snd g - fst g) (map2 (fun l u => u - l + 1) (List.map (fun _ => 1) (d_orig d)) (d_orig d))
       (map2 (fun gn lu => (clip 0 (fst (fst gn) - (fst lu - 1)), clip 0 (snd (fst gn) - (snd gn - snd lu)))) (combine (d_goff d) (d_orig d)) (combine (List.map (fun _ => 1) (d_orig d)) (d_orig d)))) = true) by congruence.
      apply existsb_exists. exists c. split; [exact Hc|]. now apply Z.ltb_lt. }
    pose proof (zprod_pos _ Hcells) as Hzp. assert (Hd0 : 0 <= d_nc d) by nia.
    unfold reshape in Ea, Ea'. destruct (forallb _ _ && _)%bool; [|discriminate]. injection Ea as <-.
    destruct (forallb _ _ && _)%bool; [|discriminate]. injection Ea' as <-. cbn [shape flat]. split; [reflexivity|].
    destruct (Z.eq_dec (d_nc d) 0) as [E0|E0].
    - (* no components: nothing is read *)
      left. revert Ey Ey'. rewrite E0.
      match goal with |- get_block _ _ _ ?dd _ _ _ _ = _ -> _ => generalize dd end. intros dd.
      enough (N : forall f dims u z, get_block fo f w dims (clip 0 (fst (d_goff_c d))) 0 (clip 0 (snd (d_goff_c d))) u = Ok z -> snd z = []) by (intros Ey Ey'; now rewrite (N _ _ _ _ Ey), (N _ _ _ _ Ey')).
      clear. intros f. induction dims as [|[[[s0 n] s1] q] dims IH]; intros u z H; cbn [get_block] in H.
      + apply bind_ok in H as (items & Ei & H). apply bind_ok in H as (ys & Ey & H). injection H as <-. cbn [snd].
        destruct (Z.of_nat (length (List.map (fdec fo w) items)) =? 0) eqn:E.
        * injection Ey as <-. apply Z.eqb_eq in E. destruct (List.map (fdec fo w) items); [reflexivity|cbn [length] in E; lia].
        * destruct (List.map (fdec fo w) items) as [|i [|]]; try discriminate. injection Ey as <-. reflexivity.
      + apply bind_ok in H as (y & Ey & H). injection H as <-. cbn [snd]. revert Ey. generalize (u + s0 * q * Z.of_nat w) as v. revert y. generalize (Z.to_nat n) as k.
        induction k as [|k IHk]; intros y v Ey; [injection Ey as <-; reflexivity|].
        apply bind_ok in Ey as (a & Ea & Ey). apply bind_ok in Ey as (b & Eb & Ey). injection Ey as <-. cbn [snd]. now rewrite (IH _ _ Ea), (IHk _ _ Eb).
    - destruct y as [y1 y2], y' as [y1' y2']. cbn [snd].
      assert (Hdm : forall dims, get_block fo p w dims (clip 0 (fst (d_goff_c d))) (d_nc d) (clip 0 (snd (d_goff_c d))) off = Ok (y1, y2) ->
        get_block fo (p ++ r) w dims (clip 0 (fst (d_goff_c d))) (d_nc d) (clip 0 (snd (d_goff_c d))) off = Ok (y1', y2') -> Forall okdim dims -> same_but_last (d_nc d) y2 y2').
      { intros dims B B' O. destruct (block_pre p r fo w (clip 0 (fst (d_goff_c d))) (d_nc d) (clip 0 (snd (d_goff_c d))) Hw ltac:(unfold clip; lia) ltac:(unfold clip; lia) ltac:(lia)
          _ _ _ _ _ _ O B B') as (_ & [E|(_ & E)]); [now left|now right]. }
      apply (Hdm _ Ey Ey').
      rewrite (map2_map2 (fun gn lu => (clip 0 (fst (fst gn) - (fst lu - 1)), clip 0 (snd (fst gn) - (snd gn - snd lu))))) in *.
      apply dims_ok; [|exact Hcells|].
      + intros ab _. cbn [fst snd]. unfold clip. lia.
      + apply tails_nonneg. apply Forall_app. split; [|constructor; [exact Hon|constructor]].
        clear - Ho. induction Ho as [|n l Hn _ IH]; cbn [List.map map2]; constructor; [lia|exact IH].
  Qed.
End DataPrefix.
