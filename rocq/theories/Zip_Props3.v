(** * C88 (mom_agyro), C89 (energetics). *)
From Coq Require Import String Ascii List Arith ZArith Bool Lia Reals Lra.
From Verif Require Import Prelude PreludeFacts NdArray Ev_Model Tools_Arr Tools_Model Tools_Proofs Tools_Proofs2
  Tools_Props Tools_Props2 Tools_Props3 DataSpace_Model DataSpace_Spec
  DataSpace_Proofs DataSpace_Proofs2 DataSpace_Proofs3 DataSpace_Props Zip_Model Zip_Proofs Zip_Props Zip_Props2.
Import ListNotations.
Open Scope list_scope.
Open Scope nat_scope.

(** ** C88: mom_agyro *)

(** A ten-moment fluid of positive density and an electromagnetic field on the
    same cells, with coordinates for every axis. *)
Definition mom_input (cells : list nat) (s : fluid) (ff : list nat -> nat -> R) (m e : fdata) : Prop :=
  exists n nf, 10 <= n /\ 6 <= nf /\ stores cells n (snd m) (tenmoment_cons s) /\ shows cells nf (snd e) ff /\
    (forall x, in_range cells x -> 0 < rho s x)%R /\ ones_first cells = true /\
    length (fst m) = length cells /\ length (fst e) = length cells.

Lemma shows_rank cells n v f : shows cells n v f -> length (shape v) = S (length cells).
Proof. intros (_ & -> & _). rewrite app_length. cbn. lia. Qed.

Lemma mom_pair_ok measure cells s ff m e : mom_input cells s ff m e ->
  exists pt bt, shows cells 6 pt (tensor s) /\ shows cells 3 bt (fun x i => ff x (3 + i)) /\
    mom_agyro_pair measure m e = let* w := get_agyro measure pt bt in Ok (fst e, w).
Proof.
  intros (n & nf & Hn & Hf & St & Sf & Hr & O & L1 & L2).
  destruct (C38_tensor 2 cells n (snd m) s Hn St Hr) as (F & EF & T & _). injection EF as <-.
  destruct (T O) as (pt & Ept & Sp).
  assert (L : slice2 nf 3 6 = [3; 4; 5]%nat).
  { unfold slice2, adjust_pos. cbn [Z.ltb Z.compare]. rewrite !Z.min_l by lia. reflexivity. }
  pose proof (yields_cols 3 6 (snd e) cells nf ff Sf) as (bb & Eb & Sb). rewrite L in Sb. cbn [length] in Sb.
  assert (Sb' : shows cells 3 bb (fun x i => ff x (3 + i)%nat)).
  { eapply shows_ext; [exact Sb|]. intros x j Hx Hj. destruct j as [|[|[|j]]]; try lia; reflexivity. }
  exists pt, bb. split; [exact Sp|]. split; [exact Sb'|].
  unfold mom_agyro_pair. rewrite Ept. cbn [bind]. rewrite Eb. cbn [bind]. unfold input_parser. cbn [fst snd].
  rewrite (shows_rank _ _ _ _ Sp), (shows_rank _ _ _ _ Sb'), L1, L2.
  rewrite !Nat.eqb_refl. cbn [negb]. rewrite !andb_false_r. cbn [bind]. reflexivity.
Qed.

(** With the measure "frobenius": one dataset per pair, on the coordinates of
    the field, holding the agyrotropy (C41) of the pressure tensor of the fluid
    and the magnetic field (components 3 to 5). *)
Theorem C88_mom st ft tag label ds :
  plain_tag st -> plain_tag ft -> aget st ds <> None -> aget ft ds <> None ->
  (forall k m e, nth_error (act ds st) k = Some m -> nth_error (act ds ft) k = Some e -> exists cells s ff, mom_input cells s ff m e) ->
  exists ds' news, mom_agyro_command "frobenius" (Some st) (Some ft) tag label ds = Ok ds' /\
    (forall t, t <> agyro_tag tag -> aget t ds' = aget t ds) /\ under ds' (agyro_tag tag) = under ds (agyro_tag tag) ++ news /\
    Forall2 (fun me n => fst (ds_data n) = fst (snd me) /\ ds_status n = true /\ ds_label n = label /\
        forall cells s ff, mom_input cells s ff (fst me) (snd me) ->
          exists p b, shows cells 6 p (tensor s) /\ shows cells 3 b (fun x i => ff x (3 + i)) /\
            get_agyro "frobenius" p b = Ok (snd (ds_data n)))
      (combine (act ds st) (act ds ft)) news.
Proof.
  intros P1 P2 K1 K2 Hin. unfold mom_agyro_command. cbn [existsb mom_agyro_choices String.eqb Ascii.eqb Bool.eqb orb negb].
  assert (Hok : forall k m e, nth_error (act ds st) k = Some m -> nth_error (act ds ft) k = Some e ->
    exists w, mom_agyro_pair "frobenius" m e = Ok (fst e, w)).
  { intros k m e Ha Hb. destruct (Hin k m e Ha Hb) as (cells & s & ff & I).
    destruct (mom_pair_ok "frobenius" _ _ _ _ _ I) as (pt & bt & Sp & Sb & ->).
    destruct (C41_choices cells 6 3 pt bt _ _ Sp Sb (le_n _) (le_n _)) as [_ [w ->]]. exists w. reflexivity. }
  set (g := fun m e : fdata => match mom_agyro_pair "frobenius" m e with Ok y => y | Err _ => e end).
  destruct (two_ok (mom_agyro_pair "frobenius") (agyro_tag tag) label ds st ft P1 P2 K1 K2 g) as (ds' & news & E & Ho & Hout & Hd & Hs).
  { intros k a b Ha Hb. unfold g. destruct (Hok k a b Ha Hb) as [w ->]. reflexivity. }
  exists ds', news. split; [exact E|]. split; [exact Ho|]. split; [exact Hout|].
  clear -Hd Hs Hok. revert news Hd Hs Hok. generalize (act ds st) (act ds ft). intros l m. revert m.
  induction l as [|a l IH]; intros [|b m] news Hd Hs Hok; destruct news as [|n news]; cbn in Hd; try discriminate Hd; cbn [combine]; try constructor.
  - injection Hd as Hn Hd. destruct (Hok 0 a b eq_refl eq_refl) as [w Ew]. destruct (Hs n (or_introl eq_refl)) as (_ & Hst & Hl).
    cbn [fst snd]. rewrite Hn. unfold g. rewrite Ew. cbn [fst snd]. repeat split; auto.
    intros cells s ff I. destruct (mom_pair_ok "frobenius" _ _ _ _ _ I) as (pt & bt & Sp & Sb & E). exists pt, bt.
    split; [exact Sp|]. split; [exact Sb|]. rewrite Ew in E. destruct (get_agyro "frobenius" pt bt); [|discriminate].
    cbn [bind] in E. now injection E as <-.
  - injection Hd as Hn Hd. apply IH; [exact Hd|intros; apply Hs; now right|]. intros k. apply (Hok (S k)).
Qed.

(** The measure of Swisdak, the one the help text calls the default, cannot be
    asked for: its name is refused, and the misspelt name that is accepted fails
    on every first pair. *)
Theorem C88_swisdak_refuted :
  (forall st ft tag label ds, mom_agyro_command "swisdak" st ft tag label ds = Err ClickFail) /\
  (forall st ft tag label ds cells s ff m e, plain_tag st -> plain_tag ft -> aget st ds <> None -> aget ft ds <> None ->
     nth_error (act ds st) 0 = Some m -> nth_error (act ds ft) 0 = Some e -> mom_input cells s ff m e ->
     mom_agyro_command "swidak" (Some st) (Some ft) tag label ds = Err ValueError).
Proof.
  split; [reflexivity|]. intros st ft tag label ds cells s ff m e P1 P2 K1 K2 Hm He I.
  unfold mom_agyro_command. cbn [existsb mom_agyro_choices String.eqb Ascii.eqb Bool.eqb orb negb].
  eapply (two_error (mom_agyro_pair "swidak") (agyro_tag tag) label ds st ft P1 P2 K1 K2 0 m e); auto.
  - intros j a b Hj. lia.
  - destruct (mom_pair_ok "swidak" _ _ _ _ _ I) as (pt & bt & Sp & Sb & ->).
    rewrite (agyro_other cells 6 3 pt bt _ _ Sp Sb (le_n _) (le_n _)); [reflexivity|discriminate|discriminate].
Qed.

(** Without tags both iterators walk through everything: each dataset is paired
    with itself. *)
Theorem C88_no_tags measure tag label ds k r :
  (forall t, In t (List.map fst ds) -> aget t ds <> None) -> ~ In (agyro_tag tag) (tl (List.map fst ds)) ->
  In measure mom_agyro_choices ->
  mom_agyro_command measure None None tag label ds =
    foldM (zip_body (on2 (mom_agyro_pair measure)) (agyro_tag tag) label) (List.map (fun r => [r; r]) (passed ds (List.map fst ds))) ds /\
  (nth_error (passed ds (List.map fst ds)) k = Some r ->
   row k (List.map (passed ds) [List.map fst ds; List.map fst ds]) = Some [r; r]).
Proof.
  intros K O Hm. split.
  - unfold mom_agyro_command.
    assert (Hc : existsb (String.eqb measure) mom_agyro_choices = true).
    { apply existsb_exists. exists measure. split; [exact Hm|apply String.eqb_refl]. }
    rewrite Hc. cbn [negb].
    rewrite (zip_loop_turns _ _ label ds None [None] (List.map fst ds) [List.map fst ds]).
    + cbn [List.map]. f_equal. generalize (passed ds (List.map fst ds)).
      induction l as [|a l IH]; [reflexivity|]. cbn [turns heads List.map]. now rewrite IH.
    + constructor.
    + constructor; [constructor|constructor].
    + exact K.
    + constructor; [exact K|constructor].
    + exact O.
    + constructor; [exact O|constructor].
  - intros E. cbn [List.map row]. now rewrite E.
Qed.

(** ** C89: energetics *)
Section Three.
  Context (f : fdata -> fdata -> fdata -> res fdata) (out label : string) (ds : dspace fdata) (t1 t2 t3 : string).
  Context (P1 : plain_tag t1) (P2 : plain_tag t2) (P3 : plain_tag t3).
  Context (K1 : aget t1 ds <> None) (K2 : aget t2 ds <> None) (K3 : aget t3 ds <> None).

  Lemma three_ok (g : fdata -> fdata -> fdata -> fdata) :
    (forall k a b c, nth_error (act ds t1) k = Some a -> nth_error (act ds t2) k = Some b -> nth_error (act ds t3) k = Some c ->
       f a b c = Ok (g a b c)) ->
    exists ds' news, zip_loop (on3 f) out label (Some t1) [Some t2; Some t3] ds = Ok ds' /\
      (forall t, t <> out -> aget t ds' = aget t ds) /\ under ds' out = under ds out ++ news /\
      (forall k, option_map ds_data (nth_error news k) =
         match nth_error (act ds t1) k, nth_error (act ds t2) k, nth_error (act ds t3) k with
         | Some a, Some b, Some c => Some (g a b c)
         | _, _, _ => None
         end) /\
      (forall n, In n news -> ds_file n = ""%string /\ ds_status n = true /\ ds_label n = label).
  Proof using P1 P2 P3 K1 K2 K3.
    intros Hf. destruct P1 as [N1 C1], P2 as [N2 C2], P3 as [N3 C3].
    destruct (C88_zip (on3 f) (fun l => match l with [a; b; c] => g a b c | _ => ([], snd (hd ([], mk_nda [] []) l)) end)
                out label ds (Some t1) [Some t2; Some t3] [t1] [[t2]; [t3]]) as (ds' & news & E & Ho & Hout & Hk).
    - now apply names_one.
    - constructor; [now apply names_one|constructor; [now apply names_one|constructor]].
    - intros t [[<-|[]]|H]; [auto|]. apply Exists_exists in H as (l & [<-|[<-|[]]] & [<-|[]]); auto.
    - intros [].
    - constructor; [intros []|constructor; [intros []|constructor]].
    - intros k rs dl Hr F. cbn [List.map row] in Hr.
      pose proof (passed_nth ds t1 k) as H1. pose proof (passed_nth ds t2 k) as H2. pose proof (passed_nth ds t3 k) as H3.
      destruct (nth_error (act ds t1) k) as [a|] eqn:Ea; [|rewrite H1 in Hr; discriminate].
      destruct H1 as (r1 & d1 & H1 & L1 & D1). rewrite H1 in Hr.
      destruct (nth_error (act ds t2) k) as [b|] eqn:Eb; [|rewrite H2 in Hr; discriminate].
      destruct H2 as (r2 & d2 & H2 & L2 & D2). rewrite H2 in Hr.
      destruct (nth_error (act ds t3) k) as [c|] eqn:Ec; [|rewrite H3 in Hr; discriminate].
      destruct H3 as (r3 & d3 & H3 & L3 & D3). rewrite H3 in Hr. injection Hr as <-.
      inversion F as [|? x1 ? ? G1 F1]; subst. inversion F1 as [|? x2 ? ? G2 F2]; subst.
      inversion F2 as [|? x3 ? ? G3 F3]; subst. inversion F3; subst.
      cbn [List.map on3]. replace x1 with d1 by congruence. replace x2 with d2 by congruence. replace x3 with d3 by congruence.
      eapply Hf; eauto.
    - exists ds', news. split; [exact E|]. split; [exact Ho|]. split; [exact Hout|]. split.
      + intros k. specialize (Hk k). cbn [List.map row] in Hk.
        pose proof (passed_nth ds t1 k) as H1. pose proof (passed_nth ds t2 k) as H2. pose proof (passed_nth ds t3 k) as H3.
        destruct (nth_error (act ds t1) k) as [a|] eqn:Ea; [|rewrite H1 in Hk; now rewrite Hk].
        destruct H1 as (r1 & d1 & H1 & L1 & D1). rewrite H1 in Hk.
        destruct (nth_error (act ds t2) k) as [b|] eqn:Eb; [|rewrite H2 in Hk; now rewrite Hk].
        destruct H2 as (r2 & d2 & H2 & L2 & D2). rewrite H2 in Hk.
        destruct (nth_error (act ds t3) k) as [c|] eqn:Ec; [|rewrite H3 in Hk; now rewrite Hk].
        destruct H3 as (r3 & d3 & H3 & L3 & D3). rewrite H3 in Hk. destruct Hk as (n & dl & En & F & Dn & _).
        inversion F as [|? x1 ? ? G1 F1]; subst. inversion F1 as [|? x2 ? ? G2 F2]; subst.
        inversion F2 as [|? x3 ? ? G3 F3]; subst. inversion F3; subst.
        rewrite En. cbn [option_map]. rewrite Dn. cbn [List.map]. congruence.
      + intros n Hn. apply In_nth_error in Hn as [k Hn]. specialize (Hk k).
        destruct (row k _) as [rs|]; [|congruence]. destruct Hk as (n' & dl & En & _ & _ & H). congruence.
  Qed.
End Three.

Lemma key_transfer {X} (a b : dspace X) t : List.map fst b = List.map fst a -> aget t a <> None -> aget t b <> None.
Proof.
  intros Hk Ha. destruct (aget t a) as [l|] eqn:E; [|congruence]. apply key_aget in E. rewrite <- Hk in E.
  destruct (aget_key b t E) as [l' Hl']. rewrite Hl'. discriminate.
Qed.

(** Deactivating plain tags one after the other. *)
Lemma deactivate_each_spec {X} ts : forall (ds : dspace X),
  Forall plain_tag ts -> Forall (fun t => aget t ds <> None) ts ->
  exists ds', deactivate_each (List.map Some ts) ds = Ok ds' /\
    forall r, lookup ds' r = option_map (fun d => if existsb (String.eqb (fst r)) ts then set_status false d else d) (lookup ds r).
Proof.
  induction ts as [|t ts IH]; intros ds P K.
  - exists ds. split; [reflexivity|]. intros r. cbn. destruct (lookup ds r); reflexivity.
  - inversion P as [|? ? [P1 P2] P']; subst. inversion K as [|? ? K1 K']; subst.
    destruct (deactivate_one ds t P1 P2 K1) as (ds1 & E1 & Ks & L1).
    destruct (IH ds1 P') as (ds2 & E2 & L2).
    { eapply Forall_impl; [|exact K']. intros u. apply key_transfer. exact Ks. }
    exists ds2. cbn [List.map deactivate_each]. rewrite E1. cbn [bind]. split; [exact E2|].
    intros r. rewrite L2, L1. destruct (lookup ds r) as [d|]; [|reflexivity]. cbn [option_map existsb].
    f_equal. destruct (String.eqb (fst r) t), (existsb (String.eqb (fst r)) ts); reflexivity.
Qed.

(** Two species with pressures [pe], [pi] and kinetic energies [ke], [ki], and a
    field with components [ff], on the same cells. *)
Definition plasma (cells : list nat) (pe ke pi ki : list nat -> R) (ff : list nat -> nat -> R) (e i m : fdata) : Prop :=
  exists nf, 7 <= nf /\ species cells (snd e) pe ke /\ species cells (snd i) pi ki /\ shows cells nf (snd m) ff /\
    ones_first cells = true.

(** One result per triple, with seven components: pressures and kinetic
    energies of the two species, electric and magnetic energy, and their sum;
    afterwards the inputs are inactive, the results active, and nothing else has
    changed. *)
Theorem C89_energetics et it ft out label ds :
  plain_tag et -> plain_tag it -> plain_tag ft -> aget et ds <> None -> aget it ds <> None -> aget ft ds <> None ->
  out <> et -> out <> it -> out <> ft ->
  (forall k e i m, nth_error (act ds et) k = Some e -> nth_error (act ds it) k = Some i -> nth_error (act ds ft) k = Some m ->
     exists cells pe ke pi ki ff, plasma cells pe ke pi ki ff e i m) ->
  exists ds' news, energetics_command et it ft out label ds = Ok ds' /\
    under ds' out = under ds out ++ news /\
    (forall r, fst r <> out -> lookup ds' r =
       option_map (fun d => if (fst r =? et)%string || (fst r =? it)%string || (fst r =? ft)%string then set_status false d else d) (lookup ds r)) /\
    (forall n, In n news -> ds_status n = true /\ ds_label n = label) /\
    forall k, match nth_error (act ds et) k, nth_error (act ds it) k, nth_error (act ds ft) k with
      | Some e, Some i, Some m => exists n, nth_error news k = Some n /\ fst (ds_data n) = fst m /\
          forall cells pe ke pi ki ff, plasma cells pe ke pi ki ff e i m ->
            shape (snd (ds_data n)) = cells ++ [7] /\
            forall x, in_range cells x ->
              let eE := ((ff x 0%nat ^ 2 + ff x 1%nat ^ 2 + ff x 2%nat ^ 2) / 2)%R in
              let eB := ((ff x 3%nat ^ 2 + ff x 4%nat ^ 2 + ff x 5%nat ^ 2) / 2)%R in
              forall j y, nth_error [pe x; ke x; pi x; ki x; eE; eB; (pe x + ke x + pi x + ki x + eE + eB)%R] j = Some y ->
                get (snd (ds_data n)) (x ++ [j]) = Some y
      | _, _, _ => nth_error news k = None
      end.
Proof.
  intros P1 P2 P3 K1 K2 K3 O1 O2 O3 Hin. unfold energetics_command.
  assert (Hok : forall k e i m, nth_error (act ds et) k = Some e -> nth_error (act ds it) k = Some i -> nth_error (act ds ft) k = Some m ->
    exists w, energetics (snd e) (snd i) (snd m) = Ok w).
  { intros k e i m He Hi Hm. destruct (Hin k e i m He Hi Hm) as (cells & pe & ke & pi & ki & ff & nf & Hn & Se & Si & Sf & O).
    destruct (C44_energetics cells nf (snd e) (snd i) (snd m) ff pe ke pi ki Se Si Sf Hn) as [H _].
    destruct (H O) as (w & E & _). eauto. }
  set (g := fun e i m : fdata => (fst m, match energetics (snd e) (snd i) (snd m) with Ok w => w | Err _ => snd m end)).
  destruct (three_ok energetics_triple out label ds et it ft P1 P2 P3 K1 K2 K3 g) as (ds1 & news & E & Ho & Hout & Hd & Hs).
  { intros k e i m He Hi Hm. unfold energetics_triple, g. destruct (Hok k e i m He Hi Hm) as [w ->]. reflexivity. }
  rewrite E. cbn [bind].
  destruct (deactivate_each_spec [et; it; ft] ds1) as (ds2 & E2 & L2).
  { repeat (constructor; auto). }
  { repeat (constructor; [rewrite Ho; auto|]). constructor. }
  cbn [List.map] in E2. rewrite E2. exists ds2, news. split; [reflexivity|].
  assert (Hx : forall r : ref, (existsb (String.eqb (fst r)) [et; it; ft]) = (fst r =? et)%string || (fst r =? it)%string || (fst r =? ft)%string).
  { intros r. cbn. rewrite orb_false_r. now rewrite orb_assoc. }
  split; [|split; [|split]].
  - assert (Hl : under ds2 out = under ds1 out).
    { apply nth_error_ext. intros k. specialize (L2 (out, k)). unfold lookup in L2. cbn [fst snd] in L2. unfold under.
      cbn [existsb] in L2. destruct (String.eqb_spec out et); [congruence|]. destruct (String.eqb_spec out it); [congruence|].
      destruct (String.eqb_spec out ft); [congruence|]. cbn [orb] in L2.
      destruct (aget out ds2) as [l2|], (aget out ds1) as [l1|]; cbn [option_map] in L2.
      - rewrite L2. destruct (nth_error l1 k); reflexivity.
      - rewrite L2. destruct k; reflexivity.
      - destruct (nth_error l1 k); [discriminate|destruct k; reflexivity].
      - reflexivity. }
    rewrite Hl. exact Hout.
  - intros r Hr. rewrite L2, Hx. unfold lookup. now rewrite Ho.
  - intros n Hn. apply Hs in Hn. tauto.
  - intros k. specialize (Hd k).
    destruct (nth_error (act ds et) k) as [e|] eqn:Ee; [|destruct (nth_error news k); [discriminate|reflexivity]].
    destruct (nth_error (act ds it) k) as [i|] eqn:Ei; [|destruct (nth_error news k); [discriminate|reflexivity]].
    destruct (nth_error (act ds ft) k) as [m|] eqn:Em; [|destruct (nth_error news k); [discriminate|reflexivity]].
    destruct (nth_error news k) as [n|] eqn:En; [|discriminate]. cbn [option_map] in Hd. injection Hd as Hd.
    exists n. split; [reflexivity|]. rewrite Hd. unfold g. cbn [fst snd]. split; [reflexivity|].
    intros cells pe ke pi ki ff (nf & Hn & Se & Si & Sf & O).
    destruct (C44_energetics cells nf (snd e) (snd i) (snd m) ff pe ke pi ki Se Si Sf Hn) as [H _].
    destruct (H O) as (w & -> & Sh & V). split; [exact Sh|]. intros x Hx' j y Hj.
    destruct (V x Hx') as (ee & bb & t & V0 & V1 & V2 & V3 & V4 & V5 & V6 & He & Hb & Ht).
    rewrite Ht, He, Hb in V6. rewrite He in V4. rewrite Hb in V5. clear He Hb Ht.
    destruct j as [|[|[|[|[|[|[|j]]]]]]]; cbn [nth_error] in Hj; try (injection Hj as <-; assumption). destruct j; discriminate Hj.
Qed.

(** One cell: the fluid of C38_ex in the field (0, 3, 4). *)
Definition ex_mom : dspace fdata :=
  [("elc"%string, [mk_dset 0 "elc_0.bp" true "" (ex_axis, one_cell [2; 2; 4; -2; 5; 5; -2; 12; -5; 7]%R)]);
   ("field"%string, [mk_dset 1 "field_0.bp" true "" (ex_axis, one_cell [1; 0; 0; 0; 3; 4; 0; 0]%R)])].

Lemma ex_mom_input : exists ff, mom_input [1] ex_fluid ff
  (ex_axis, one_cell [2; 2; 4; -2; 5; 5; -2; 12; -5; 7]%R) (ex_axis, one_cell [1; 0; 0; 0; 3; 4; 0; 0]%R).
Proof.
  eexists. exists 10, 8. split; [lia|]. split; [lia|]. cbn [snd fst]. split; [|split; [apply one_cell_shows; reflexivity|]].
  - apply one_cell_stores; [reflexivity|]. intros x _. unfold tenmoment_cons, ex_fluid; cbn. repeat (f_equal; try lra).
  - split; [intros; cbn; lra|]. split; [reflexivity|]. split; reflexivity.
Qed.

Example C88_mom_ex : exists ds' n, mom_agyro_command "frobenius" (Some "elc"%string) (Some "field"%string) (Some "A"%string) "l" ex_mom = Ok ds' /\
  under ds' "A" = [n] /\ aget "elc"%string ds' = aget "elc"%string ex_mom /\ fst (ds_data n) = ex_axis.
Proof.
  destruct ex_mom_input as [ff I].
  assert (Hin : forall k p b, nth_error (act ex_mom "elc") k = Some p -> nth_error (act ex_mom "field") k = Some b ->
    exists cells s ff, mom_input cells s ff p b).
  { intros [|[|k]] p b; cbn; intros H1 H2; try discriminate. injection H1 as <-. injection H2 as <-. eauto. }
  destruct (C88_mom "elc" "field" (Some "A"%string) "l" ex_mom) as (ds' & news & E & Ho & Hu & F);
    [split; [discriminate|reflexivity]|split; [discriminate|reflexivity]|discriminate|discriminate|exact Hin|].
  cbn [act actives aget ex_mom combine List.map filter] in F.
  change (combine (act ex_mom "elc") (act ex_mom "field")) with
    [((ex_axis, one_cell [2; 2; 4; -2; 5; 5; -2; 12; -5; 7]%R), (ex_axis, one_cell [1; 0; 0; 0; 3; 4; 0; 0]%R))] in F.
  inversion F as [|? n ? rest Hn Hr]; subst. inversion Hr; subst. exists ds', n. split; [exact E|]. split; [exact Hu|].
  split; [apply Ho; discriminate|]. apply Hn.
Qed.

Example C88_swisdak_ex : mom_agyro_command "swidak" (Some "elc"%string) (Some "field"%string) None "l" ex_mom = Err ValueError.
Proof.
  destruct ex_mom_input as [ff I].
  assert (P1 : plain_tag "elc") by (split; [discriminate|reflexivity]).
  assert (P2 : plain_tag "field") by (split; [discriminate|reflexivity]).
  assert (K1 : aget "elc"%string ex_mom <> None) by discriminate.
  assert (K2 : aget "field"%string ex_mom <> None) by discriminate.
  exact (proj2 C88_swisdak_refuted "elc"%string "field"%string None "l"%string ex_mom [1] ex_fluid ff _ _ P1 P2 K1 K2 eq_refl eq_refl I).
Qed.

Example C88_no_tags_ex : ~ In (agyro_tag None) (tl (List.map fst ex_mom)) /\
  passed ex_mom (List.map fst ex_mom) = [("elc"%string, 0); ("field"%string, 0)].
Proof. split; [|reflexivity]. intros [H|[]]. discriminate H. Qed.

(** The plasma of C44_energy_ex, with equal electrons and ions. *)
Definition ex_plasma : dspace fdata :=
  [("elc"%string, [mk_dset 0 "elc_0.bp" true "" (ex_axis, one_cell [2; 2; 4; -2; 21 / 2]%R)]);
   ("ion"%string, [mk_dset 1 "ion_0.bp" true "" (ex_axis, one_cell [2; 2; 4; -2; 21 / 2]%R)]);
   ("field"%string, [mk_dset 2 "field_0.bp" true "" (ex_axis, one_cell [1; 0; 0; 0; 2; 0; 0; 0]%R)])].

Example C89_ex : exists ds' n, energetics_command "elc" "ion" "field" "energetics" "E" ex_plasma = Ok ds' /\
  under ds' "energetics" = [n] /\ ds_status n = true /\ actives ds' "elc" = [] /\
  get (snd (ds_data n)) [0; 6] = Some (3 + 6 + 3 + 6 + 1 / 2 + 2)%R.
Proof.
  assert (Sp : species [1] (one_cell [2; 2; 4; -2; 21 / 2]%R) (fun _ => 3%R) (fun _ => 6%R)).
  { apply (five _ _ _ _ ex_fluid).
    - apply one_cell_stores; [reflexivity|]. intros x _. unfold euler_cons, u2, ex_fluid, gas_gamma; cbn. repeat (f_equal; try lra).
    - reflexivity.
    - intros; cbn; lra.
    - intros; reflexivity.
    - intros; unfold u2; cbn; lra. }
  assert (Sf : shows [1] 8 (one_cell [1; 0; 0; 0; 2; 0; 0; 0]%R) (fun _ j => nth j [1; 0; 0; 0; 2; 0; 0; 0]%R 0%R)) by (apply one_cell_shows; reflexivity).
  assert (Pl : plasma [1] (fun _ => 3%R) (fun _ => 6%R) (fun _ => 3%R) (fun _ => 6%R) (fun _ j => nth j [1; 0; 0; 0; 2; 0; 0; 0]%R 0%R)
    (ex_axis, one_cell [2; 2; 4; -2; 21 / 2]%R) (ex_axis, one_cell [2; 2; 4; -2; 21 / 2]%R) (ex_axis, one_cell [1; 0; 0; 0; 2; 0; 0; 0]%R)).
  { exists 8. split; [lia|]. cbn [snd]. repeat (split; [assumption|]). reflexivity. }
  assert (P1 : plain_tag "elc") by (split; [discriminate|reflexivity]).
  assert (P2 : plain_tag "ion") by (split; [discriminate|reflexivity]).
  assert (P3 : plain_tag "field") by (split; [discriminate|reflexivity]).
  assert (K1 : aget "elc"%string ex_plasma <> None) by discriminate.
  assert (K2 : aget "ion"%string ex_plasma <> None) by discriminate.
  assert (K3 : aget "field"%string ex_plasma <> None) by discriminate.
  assert (N1 : "energetics"%string <> "elc"%string) by discriminate.
  assert (N2 : "energetics"%string <> "ion"%string) by discriminate.
  assert (N3 : "energetics"%string <> "field"%string) by discriminate.
  destruct (C89_energetics "elc" "ion" "field" "energetics" "E" ex_plasma P1 P2 P3 K1 K2 K3 N1 N2 N3) as (ds' & news & E & Hu & Hl & Hs & Hk).
  { intros [|[|k]] e i m; cbn; intros H1 H2 H3; try discriminate. injection H1 as <-. injection H2 as <-. injection H3 as <-.
    exists [1], (fun _ => 3%R), (fun _ => 6%R), (fun _ => 3%R), (fun _ => 6%R), (fun _ j => nth j [1; 0; 0; 0; 2; 0; 0; 0]%R 0%R). exact Pl. }
  pose proof (Hk 0) as H0. pose proof (Hk 1) as H1. cbn -[Rplus Rmult Rdiv] in H0, H1.
  destruct H0 as (n & En & _ & V). destruct news as [|n' [|? ?]]; [discriminate En| |discriminate H1]. injection En as ->.
  exists ds', n. split; [exact E|]. split; [exact Hu|]. split; [apply (Hs n (or_introl eq_refl))|]. split.
  - destruct (actives ds' "elc") as [|d l] eqn:Ea; [reflexivity|exfalso].
    assert (Hd : In d (actives ds' "elc")) by (rewrite Ea; now left). clear Ea l.
    unfold actives in Hd. destruct (aget "elc"%string ds') as [l|] eqn:El; [|destruct Hd].
    apply filter_In in Hd as [Hd Hst]. apply In_nth_error in Hd as [k Hd].
    specialize (Hl ("elc"%string, k) ltac:(discriminate)). unfold lookup in Hl. cbn [fst snd] in Hl. rewrite El, Hd in Hl.
    destruct k as [|[|k]]; cbn in Hl; try discriminate Hl. injection Hl as ->. discriminate Hst.
  - destruct (V _ _ _ _ _ _ Pl) as [_ G]. specialize (G [0]). cbn zeta in G.
    change [0; 6] with ([0] ++ [6]). erewrite (G _ 6); [|reflexivity]. f_equal. cbn [nth]. lra.
    Unshelve. repeat constructor; lia.
Qed.

Print Assumptions C88_mom. Print Assumptions C88_swisdak_refuted. Print Assumptions C88_no_tags. Print Assumptions C89_energetics.
