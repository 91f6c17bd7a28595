(** The test programs, C83-C85. *)
From Coq Require Import String ZifyBool.
From Verif Require Import Base Scalar EllSpec Grid EllModel AssemblyModel AsmPure MicroModel OutputModel NewtonBase ApiBase ApiRun ApiHist Build ApiSpec ApiProps ApiCases LogProps OutProps DriverModel.
Open Scope string_scope.
Open Scope list_scope.
Open Scope Z_scope.

Section D.
Context {T : Type} `{OT : Ops T}.
Implicit Types (o : obj T) (fs : files T).
Notation toks := (list (tok T)).

(** ** What the programs should do, read off their text *)
(** one hundredth is added in the steps 0-29, 80-129 and from 250 on, and subtracted in the others *)
Definition up (t : Z) : bool := (t <? 30) || ((80 <=? t) && (t <? 130)) || (250 <=? t).
Fixpoint level (k : nat) : T :=
  match k with
  | O => ofZ 0
  | S k => if up (Z.of_nat k) then oadd (level k) (odiv (ofZ 1) (ofZ 100)) else osub (level k) (odiv (ofZ 1) (ofZ 100))
  end.
(** the strain array after k steps *)
Definition strain (dir : Z) (k : nat) : list T := map (fun i => if i =? dir then level k else ofZ 0) (zrange 0 6).
(** what step t prints *)
Definition text (t : Z) (x : T) (s : Z -> T) : toks :=
  [TS "time step = "; TI t; NL; TS "eps = "; TD x; NL; TS "sig = "; TD (s 0); TS " "; TD (s 1); TS " "; TD (s 2); TS " "; TD (s 3); TS " ";
   TD (s 4); TS " "; TD (s 5); NL; NL].
(** the record of one Gauss point in micropp_eps_sig_ctan.dat *)
Definition record (eps : list T) (s c : Z -> T) : toks :=
  flat_map (fun x => [TD x; TS " "]) (eps ++ map s (zrange 0 6) ++ map c (zrange 0 36)) ++ [TS " | "; NL].

(** ** One step *)
Lemma load_level t k : 0 <= t -> k = Z.to_nat t -> load t (level k) = level (S k).
Proof.
  intros Ht ->. cbn [level]. rewrite Z2Nat.id by lia. unfold load, up, dec. change (10 ^ 2) with 100.
  destruct (Z.ltb_spec t 30); [reflexivity|]. destruct (Z.ltb_spec t 80), (Z.leb_spec 80 t); try lia; destruct (Z.ltb_spec t 130), (Z.ltb_spec t 250), (Z.leb_spec 250 t); try lia; reflexivity.
Qed.
Lemma strain_len dir k : length (strain dir k) = 6%nat.
Proof. unfold strain. rewrite map_length, length_zrange. reflexivity. Qed.
Lemma strain_get dir k i : 0 <= i < 6 -> lget (strain dir k) i = if i =? dir then level k else ofZ 0.
Proof. intros H. apply (lget_ltab 6 (fun i => if i =? dir then level k else ofZ 0)). exact H. Qed.

Lemma load_strain dir t k : 0 <= dir < 6 -> 0 <= t -> k = Z.to_nat t -> load_at dir t (strain dir k) = Ok (strain dir (S k)).
Proof.
  intros Hd Ht Hk. unfold load_at. rewrite arg_ok by (rewrite strain_len; lia). cbn [bind]. f_equal. rewrite strain_len. change (Z.of_nat 6) with 6. unfold strain at 3.
  apply map_ext_in. intros i Hi. apply in_zrange in Hi. rewrite strain_get by lia. destruct (Z.eqb_spec i dir) as [->|N]; [|reflexivity].
  now apply load_level.
Qed.
Lemma nth_sig (l : list T) : length l = 6%nat -> mapM (fun i => of_option Uninit (nth_error l (Z.to_nat i))) (zrange 0 6) = Ok l.
Proof. intros H. do 6 (destruct l as [|? l]; [discriminate|]). destruct l; [|discriminate]. reflexivity. Qed.

Lemma rdl_get (a : arr T) n l : rdl a n = Ok l -> l = map (oval a) (zrange 0 n).
Proof. intros H. exact (proj2 (rdl_inv a n l H)). Qed.
Lemma stress_reply o fs id g o' fs' l : lookup id (o_gps o) = Some g -> step (GetStress id) (o, fs) = Ok (o', fs', RBuf (Some l)) ->
  l = map (oval (g_stress g)) (zrange 0 (nvoi (o_env o))).
Proof.
  intros L H. cbn [step] in H. apply bind_ok in H. destruct H as (b & E & H). injection H as <- <- ->. unfold get_macro_stress in E. rewrite L in E.
  apply bind_ok in E. destruct E as (s & E & X). injection X as ->. exact (rdl_get _ _ _ E).
Qed.
Lemma entries_get (a : arr T) n l : entries a n = map (fun i => Some (lget l i)) (zrange 0 n) -> map (oval a) (zrange 0 n) = map (lget l) (zrange 0 n).
Proof.
  unfold entries. intros H. apply map_ext_in. intros i Hi. assert (E : forall z, In z (zrange 0 n) -> aget a z = Some (lget l z)).
  { clear -H. induction (zrange 0 n) as [|z zs IH]; cbn [map] in H; [intros ? []|]. injection H as H1 H2. intros y [->|Hy]; [exact H1|now apply IH]. }
  unfold oval. now rewrite (E i Hi).
Qed.
Lemma list_get (l : list T) : map (lget l) (zrange 0 (Z.of_nat (length l))) = l.
Proof.
  unfold zrange. rewrite map_map. rewrite Z.sub_0_r, Nat2Z.id. apply nth_ext with (d := lget l 0) (d' := ofZ 0).
  - now rewrite map_length, seq_length.
  - intros n Hn. rewrite map_length, seq_length in Hn. rewrite (map_nth (fun x => lget l (0 + Z.of_nat x)) _ 0%nat). rewrite seq_nth by lia. unfold lget. f_equal. lia.
Qed.
Lemma only_one l : (forall x, In x l -> x = 1) -> l <> [] -> first_use l = [1].
Proof.
  intros H N. assert (D := first_use_nodup l). assert (I := fun x => first_use_in l x). destruct (first_use l) as [|a r].
  - destruct l as [|x l]; [congruence|]. elim (proj2 (I x)). now left.
  - assert (a = 1) as -> by (apply H, I; now left). destruct r as [|b r]; [reflexivity|]. exfalso.
    assert (b = 1) as -> by (apply H, I; right; now left). inversion D as [|x y Z]. apply Z. now left.
Qed.

Lemma quiet c o fs o' fs' r : step c (o, fs) = Ok (o', fs', r) -> match c with WriteInfo => True | _ => o_header o' = o_header o end.
Proof. intros H. destruct c; try exact I; eapply (quiet_step _ o fs o' fs' r); try exact H; discriminate. Qed.

Lemma reach_run o0 cs o fs cs2 o' fs' rs : reaches o0 cs o fs -> run cs2 (o, fs) = Ok (o', fs', rs) -> reaches o0 (cs ++ cs2) o' fs'.
Proof. intros (fs0 & rs0 & E) H. exists fs0, (rs0 ++ rs). rewrite run_app, E. cbn [bind fst snd]. rewrite H. reflexivity. Qed.
Lemma run_then cs cs2 s o fs rs o' fs' rs2 : run cs s = Ok (o, fs, rs) -> run cs2 (o, fs) = Ok (o', fs', rs2) -> run (cs ++ cs2) s = Ok (o', fs', rs ++ rs2).
Proof. intros E H. rewrite run_app, E. cbn [bind fst snd]. rewrite H. reflexivity. Qed.
Definition turn (fuel : nat) (orc : Z -> Z -> Z -> peek) (pk : Z -> peek) dir (t : Z) : list (call T) :=
  [SetStrain 1 (strain dir (S (Z.to_nat t))); Homogenize fuel (orc t); GetStress 1; UpdateVars; WriteInfo; Output fuel (pk t) t 1].
(** what the calls of one turn answer *)
Definition replies (sig : list T) : list (reply T) := [RUnit; RUnit; RBuf (Some sig); RUnit; RUnit; RUnit].
Lemma turn_ok fuel orc pk dir t o0 cs o fs out : is_object o0 -> reaches o0 cs o fs -> v_dim (o_env o0) = 3 -> (forall id, In id (set_ids cs) -> id = 1) ->
  0 <= dir < 6 -> 0 <= t -> o_header o = negb (match set_ids cs with [] => true | _ => false end) ->
  match time_step fuel orc pk "sig = " 6 dir (o, fs, strain dir (Z.to_nat t), out) t with
  | Err e => (exists j i, nbad fuel (orc t j i) e) \/ nbad fuel (pk t) e
  | Ok (o', fs', eps, out') => eps = strain dir (S (Z.to_nat t)) /\ o_header o' = true /\
      exists sig c, run (turn fuel orc pk dir t) (o, fs) = Ok (o', fs', replies sig) /\ out' = out ++ text t (level (S (Z.to_nat t))) (lget sig) /\
        f_esc fs' = f_esc fs ++ (if o_header o then [] else esc_header [1]) ++ record eps (lget sig) c /\ f_mats fs' = f_mats fs /\
        map fst (f_vtu fs') = (1, t) :: map fst (f_vtu fs)
  end.
Proof.
  intros O R D Ids Hd Ht Hh. unfold time_step. rewrite load_strain by auto. cbn [bind run]. set (eps := strain dir (S (Z.to_nat t))).
  assert (Nv : forall cs o fs, reaches o0 cs o fs -> nvoi (o_env o) = 6 /\ obj_ok o).
  { intros cs1 o1 fs1 R1. destruct (reach_inv o0 cs1 o1 fs1 O R1) as (K & (Ev & _) & _). split; [|exact K]. unfold nvoi. rewrite Ev, D. reflexivity. }
  (* set *)
  destruct (Nv _ _ _ R) as (N0 & K0). pose proof (step_ok (SetStrain 1 eps) o fs K0) as S1.
  destruct (step (SetStrain 1 eps) (o, fs)) as [((o1, fs1), r1)|e] eqn:E1.
  2:{ cbn [allowed] in S1. destruct S1 as (_ & S1). rewrite N0 in S1. unfold eps in S1. rewrite strain_len in S1. lia. }
  clear S1. pose proof (reach_step _ _ _ _ _ _ _ _ R E1) as R1. cbn [bind fst snd].
  pose proof (quiet _ _ _ _ _ _ E1) as H1; cbn beta iota in H1. assert (Q1 : fs1 = fs /\ r1 = RUnit).
  { cbn [step] in E1. destruct (Z.of_nat (List.length eps) <? nvoi (o_env o)); [discriminate E1|]. apply bind_ok in E1. destruct E1 as (? & _ & E1). injection E1 as _ -> ->. auto. } destruct Q1 as (-> & ->).
  (* homogenize *)
  destruct (Nv _ _ _ R1) as (N1 & K1). pose proof (step_ok (Homogenize fuel (orc t)) o1 fs K1) as S2.
  destruct (step (Homogenize fuel (orc t)) (o1, fs)) as [((o2, fs2), r2)|e] eqn:E2; cbn [bind fst snd].
  2:{ left. exact S2. }
  clear S2. pose proof (reach_step _ _ _ _ _ _ _ _ R1 E2) as R2. pose proof (quiet _ _ _ _ _ _ E2) as H2; cbn beta iota in H2.
  assert (Q2 : fs2 = fs /\ r2 = RUnit). { cbn [step] in E2. apply bind_ok in E2. destruct E2 as (? & _ & E2). injection E2 as _ -> ->. auto. } destruct Q2 as (-> & ->).
  destruct (Nv _ _ _ R2) as (N2 & K2).
  (* the stress *)
  assert (I2 : In 1 (set_ids ((cs ++ [SetStrain 1 eps]) ++ [Homogenize fuel (orc t)]))).
  { rewrite !set_ids_app. apply in_or_app. left. apply in_or_app. right. now left. }
  assert (G2 : homogenised 1 ((cs ++ [SetStrain 1 eps]) ++ [Homogenize fuel (orc t)])).
  { apply homogenised_snoc. right. split; [rewrite set_ids_app; apply in_or_app; right; now left|eauto]. }
  destruct (proj1 (results_defined o0 _ o2 fs 1 O R2 I2) G2) as ((sig & E3 & Ls) & _). rewrite E3. cbn [bind fst snd received].
  pose proof (reach_step _ _ _ _ _ _ _ _ R2 E3) as R3.
  (* update *)
  destruct (update_frame o0 _ o2 fs O R3) as (o4 & E4 & _ & _ & M4 & F4). rewrite E4. cbn [bind fst snd].
  pose proof (quiet _ _ _ _ _ _ E4) as H4; cbn beta iota in H4.
  pose proof (reach_step _ _ _ _ _ _ _ _ R3 E4) as R4. destruct (Nv _ _ _ R4) as (N4 & K4).
  set (cs4 := (((cs ++ [SetStrain 1 eps]) ++ [Homogenize fuel (orc t)]) ++ [GetStress 1]) ++ [UpdateVars]) in *.
  assert (Si : set_ids cs4 = set_ids cs ++ [1]) by (unfold cs4; rewrite !set_ids_app; cbn; rewrite !app_nil_r; reflexivity).
  assert (Ids4 : forall id, In id (set_ids cs4) -> id = 1).
  { intros id Hi. rewrite Si in Hi. apply in_app_or in Hi. destruct Hi as [Hi|[<-|[]]]; [now apply Ids|reflexivity]. }
  destruct (info_3d o0 cs4 o4 fs O R4 D) as (o5 & fs5 & E5).
  { intros id Hi. rewrite (Ids4 id Hi). unfold cs4. apply homogenised_snoc. left. apply homogenised_snoc. left. exact G2. }
  rewrite E5. cbn [bind fst snd]. pose proof (reach_step _ _ _ _ _ _ _ _ R4 E5) as R5. destruct (Nv _ _ _ R5) as (N5 & K5).
  assert (W5 : write_info_files o4 fs = Ok (o5, fs5)). { cbn [step] in E5. apply bind_ok in E5. destruct E5 as (q & Eq & E5). injection E5 as ->. exact Eq. }
  destruct (info_inv _ _ _ _ W5) as (_ & X5 & Y1 & Y2 & _ & Y3 & _).
  (* the point *)
  destruct (keyed_store o0 _ o2 fs O R2) as (_ & _ & _ & L2). destruct (L2 1 eps) as (g & Lg & Sg).
  { apply last_set_snoc. right. split; [intros e; discriminate|]. apply last_set_snoc. now left. }
  destruct (F4 1 g Lg) as (g4 & Lg4 & A1 & A2 & _).
  assert (Gs : o_gps o4 = [g4]).
  { destruct (keyed_store o0 _ o4 fs O R4) as (M & _). rewrite (only_one _ Ids4) in M by (rewrite Si; destruct (set_ids cs); discriminate).
    destruct (o_gps o4) as [|h [|h' l]]; [discriminate| |discriminate]. cbn [lookup] in Lg4. injection M as M. rewrite M in Lg4. cbn in Lg4. now injection Lg4 as ->. }
  (* prints *)
  rewrite arg_ok by (unfold eps; rewrite strain_len; lia). cbn [bind].
  assert (Ex : lget eps dir = level (S (Z.to_nat t))) by (unfold eps; rewrite strain_get by lia; now rewrite Z.eqb_refl). rewrite Ex.
  rewrite nth_sig by lia. cbn [bind].
  (* output *)
  pose proof (step_ok (Output fuel (pk t) t 1) o5 fs5 K5) as S6.
  destruct (step (Output fuel (pk t) t 1) (o5, fs5)) as [((o6, fs6), r6)|e] eqn:E6; cbn [bind fst snd].
  2:{ right. exact S6. }
  clear S6. destruct (lookup_set o0 _ o5 fs5 1 O R5) as (g5 & L5). { rewrite set_ids_app, Si. apply in_or_app. left. apply in_or_app. right. now left. }
  destruct (output_step o0 _ o5 fs5 fuel (pk t) t 1 g5 o6 fs6 r6 O R5 L5 E6) as (_ & f & _ & Ff).
  pose proof (reach_step _ _ _ _ _ _ _ _ R5 E6) as R6. pose proof (quiet _ _ _ _ _ _ E6) as H6; cbn beta iota in H6.
  split; [reflexivity|]. split; [rewrite H6, X5; reflexivity|].
  pose proof (stress_reply _ _ _ _ _ _ _ Lg E3) as Es. rewrite N2 in Es.
  assert (Q6 : r6 = RUnit). { cbn [step] in E6. apply bind_ok in E6. destruct E6 as (? & _ & E6). now injection E6. }
  assert (Gl : forall i, 0 <= i < 6 -> lget sig i = oval (g_stress g) i) by (intros i Hi; rewrite Es; exact (lget_ltab 6 (oval (g_stress g)) i Hi)).
  exists sig, (oval (g_ctan g4)). split; [|split; [|split; [|split]]].
  - unfold turn, replies. cbn [run]. fold eps. rewrite E1. cbn [bind fst snd]. rewrite E2. cbn [bind fst snd]. rewrite E3. cbn [bind fst snd]. rewrite E4. cbn [bind fst snd].
    rewrite E5. cbn [bind fst snd]. rewrite E6. cbn [bind fst snd]. rewrite Q6. reflexivity.
  - unfold text. rewrite !Gl by lia. rewrite Es. change (zrange 0 6) with [0; 1; 2; 3; 4; 5]. reflexivity.
  - subst fs6. cbn [f_esc]. rewrite Y3. rewrite H4, H2, H1. f_equal. rewrite Gs. cbn [map]. assert (Id4 : g_id g4 = 1) by exact (proj2 (lookup_in _ _ _ Lg4)). rewrite Id4. f_equal.
    unfold line, record. rewrite (map_ext_in (lget sig) (oval (g_stress g))) by (intros i Hi; apply in_zrange in Hi; now apply Gl). rewrite Gs. cbn [flat_map]. rewrite app_nil_r. unfold esc_group. rewrite A1, A2. rewrite <- app_assoc. cbn [app]. f_equal. f_equal. f_equal.
    unfold stored in Sg. rewrite N2 in Sg. rewrite (entries_get _ _ _ Sg). change 6 with (Z.of_nat 6) at 1. rewrite <- (strain_len dir (S (Z.to_nat t))). fold eps. apply list_get.
  - subst fs6. cbn [f_mats]. exact Y1.
  - subst fs6. cbn [f_vtu map fst]. now rewrite Y2.
Qed.

(** ** The loop *)
Definition script (fuel : nat) (orc : Z -> Z -> Z -> peek) (pk : Z -> peek) dir (n : Z) : list (call T) := flat_map (turn fuel orc pk dir) (zrange 0 n).
Lemma foldM_snoc {A B} (f : A -> B -> res A) l x a : foldM f (l ++ [x]) a = (' r <- foldM f l a ;; f r x).
Proof. revert a. induction l as [|y l IH]; intros a; cbn [foldM app bind]; [destruct (f a x); reflexivity|]. destruct (f a y); cbn [bind]; [apply IH|reflexivity]. Qed.

Definition loop_post fuel orc pk dir steps o0 fs0 o fs (eps : list T) (out : toks) : Prop :=
  eps = strain dir (Z.to_nat steps) /\ o_header o = (0 <? steps) /\
  exists (sig : Z -> list T) (c : Z -> Z -> T), run (script fuel orc pk dir steps) (o0, fs0) = Ok (o, fs, flat_map (fun t => replies (sig t)) (zrange 0 steps)) /\
    out = flat_map (fun t => text t (level (S (Z.to_nat t))) (lget (sig t))) (zrange 0 steps) /\
    f_esc fs = (if 0 <? steps then esc_header [1] else []) ++ flat_map (fun t => record (strain dir (S (Z.to_nat t))) (lget (sig t)) (c t)) (zrange 0 steps) /\
    f_mats fs = f_mats fs0 /\ map fst (f_vtu fs) = rev (map (fun t => (1, t)) (zrange 0 steps)) ++ map fst (f_vtu fs0).
Lemma drive_ok fuel orc pk dir steps o0 fs0 : is_object o0 -> v_dim (o_env o0) = 3 -> 0 <= dir < 6 -> f_esc fs0 = [] -> 
  match drive fuel orc pk "sig = " 6 dir steps (o0, fs0) with
  | Err e => exists t, 0 <= t < steps /\ ((exists j i, nbad fuel (orc t j i) e) \/ nbad fuel (pk t) e)
  | Ok (o, fs, eps, out) => loop_post fuel orc pk dir (Z.max 0 steps) o0 fs0 o fs eps out
  end.
Proof.
  intros O D Hd F0. unfold drive. destruct (Z.le_gt_cases steps 0) as [Hn|Hn].
  { rewrite zrange_empty by lia. cbn [foldM]. replace (Z.max 0 steps) with 0 by lia.
    split; [unfold strain, ltab; apply map_ext; intros i; cbn [level]; now destruct (i =? dir)|].
    split. { destruct O as (dim & nx & ny & nz & mtype & mp & mt & ps & f & q & j & A & J & E). pose proof (construct_ok f q j dim nx ny nz mtype mp mt ps A J) as H. rewrite E in H. tauto. }
    exists (fun _ => []), (fun _ _ => ofZ 0). cbn. auto. }
  rewrite Z.max_r by lia. assert (Hn0 : 0 <= steps) by lia. clear Hn. revert steps Hn0. apply natlike_ind.
  - cbn [foldM zrange]. change (zrange 0 0) with (@nil Z). cbn [foldM].
    split; [unfold strain, ltab; apply map_ext; intros i; cbn [level]; now destruct (i =? dir)|].
    split. { destruct O as (dim & nx & ny & nz & mtype & mp & mt & ps & f & q & j & A & J & E). pose proof (construct_ok f q j dim nx ny nz mtype mp mt ps A J) as H. rewrite E in H. tauto. }
    exists (fun _ => []), (fun _ _ => ofZ 0). cbn. auto.
  - intros n Hn IH. unfold Z.succ. rewrite zrange_snoc by lia. rewrite foldM_snoc. destruct (foldM _ (zrange 0 n) _) as [(((o, fs), eps), out)|e] eqn:E; cbn [bind].
    2:{ destruct IH as (t & Ht & H). exists t. split; [lia|exact H]. }
    destruct IH as (-> & Hh & s & c & Rn & -> & Fe & Fm & Fv). assert (R : reaches o0 (script fuel orc pk dir n) o fs) by (exists fs0; eexists; exact Rn).
    assert (Si : set_ids (script fuel orc pk dir n) = map (fun _ => 1) (zrange 0 n)).
    { unfold script. clear. induction (zrange 0 n) as [|t l IH]; [reflexivity|]. cbn [flat_map map]. rewrite set_ids_app, IH. reflexivity. }
    pose proof (turn_ok fuel orc pk dir n o0 _ o fs (flat_map (fun t => text t (level (S (Z.to_nat t))) (lget (s t))) (zrange 0 n)) O R D) as K.
    destruct (time_step fuel orc pk "sig = " 6 dir _ n) as [(((o', fs'), eps'), out')|e].
    + destruct K as (-> & H' & s1 & c1 & R' & -> & Fe' & Fm' & Fv'); [rewrite Si; intros id Hi; apply in_map_iff in Hi; destruct Hi as (? & <- & _); reflexivity|exact Hd|exact Hn| |].
      { rewrite Hh, Si. destruct (Z.ltb_spec 0 n); [rewrite zrange_cons by lia|rewrite zrange_empty by lia]; reflexivity. }
      split; [f_equal; lia|]. replace (0 <? n + 1) with true by lia. split; [exact H'|].
      exists (fun t => if t =? n then s1 else s t), (fun t => if t =? n then c1 else c t). unfold script in *. rewrite zrange_snoc by lia. rewrite !flat_map_app, map_app, rev_app_distr. cbn [flat_map map rev app]. rewrite !Z.eqb_refl, !app_nil_r.
      assert (X : forall {A} (f : list T -> Z -> list A), flat_map (fun t => f (if t =? n then s1 else s t) t) (zrange 0 n) = flat_map (fun t => f (s t) t) (zrange 0 n)).
      { intros A f. apply flat_ext. intros t Ht. apply in_zrange in Ht. destruct (Z.eqb_spec t n); [lia|reflexivity]. }
      split; [rewrite (run_then _ _ _ _ _ _ _ _ _ Rn R'); do 2 f_equal; f_equal; symmetry; exact (X _ (fun s _ => replies s))|].
      split; [f_equal; symmetry; exact (X _ (fun s t => text t (level (S (Z.to_nat t))) (lget s)))|]. split; [|split; [congruence|rewrite Fv', Fv; reflexivity]].
      rewrite Fe', Fe, Hh. assert (Y : flat_map (fun t => record (strain dir (S (Z.to_nat t))) (lget (if t =? n then s1 else s t)) (if t =? n then c1 else c t)) (zrange 0 n) = flat_map (fun t => record (strain dir (S (Z.to_nat t))) (lget (s t)) (c t)) (zrange 0 n)).
      { apply flat_ext. intros t Ht. apply in_zrange in Ht. destruct (Z.eqb_spec t n); [lia|reflexivity]. }
      rewrite Y. destruct (Z.ltb_spec 0 n); [cbn [app]; now rewrite <- !app_assoc|]. rewrite zrange_empty by lia. cbn [flat_map app]. reflexivity.
    + exists n. split; [lia|]. apply K; [rewrite Si; intros id Hi; apply in_map_iff in Hi; destruct Hi as (? & <- & _); reflexivity|exact Hd|exact Hn|].
      rewrite Hh, Si. destruct (Z.ltb_spec 0 n); [rewrite zrange_cons by lia|rewrite zrange_empty by lia]; reflexivity.
Qed.

(** ** The programs *)
(** a Newton loop of the run met a stray read that ended it badly, or never ended *)
Definition trouble (fuel : nat) (q0 : Z -> peek) (orc : Z -> Z -> Z -> peek) (pk : Z -> peek) (steps : Z) (e : err) : Prop :=
  (exists i, nbad fuel (q0 i) e) \/ exists t, 0 <= t < steps /\ ((exists j i, nbad fuel (orc t j i) e) \/ nbad fuel (pk t) e).
(** what a run of n steps in direction dir calls on its object, gets back, prints and leaves in the files *)
Definition ran (fuel : nat) (q0 : Z -> peek) (orc : Z -> Z -> Z -> peek) (pk : Z -> peek) (j : junk T) (nx ny nz : Z) (ps : list T) (dir n : Z) (mats : toks) fs0 fs (out : toks) : Prop :=
  exists o0 o (sig : Z -> list T) (c : Z -> Z -> T),
    construct fuel q0 j 3 [nx; ny; nz] 1 [ofZ 1; ofZ 1; ofZ 1; odiv (ofZ 1) (ofZ 10); ofZ 0] [1; 0] ps = Ok o0 /\
    run (flat_map (turn fuel orc pk dir) (zrange 0 n)) (o0, construct_files o0 fs0) = Ok (o, fs, flat_map (fun t => replies (sig t)) (zrange 0 n)) /\
    out = flat_map (fun t => text t (level (S (Z.to_nat t))) (lget (sig t))) (zrange 0 n) /\
    f_esc fs = (if 0 <? n then esc_header [1] else []) ++ flat_map (fun t => record (strain dir (S (Z.to_nat t))) (lget (sig t)) (c t)) (zrange 0 n) /\
    f_mats fs = mats /\ map fst (f_vtu fs) = rev (map (fun t => (1, t)) (zrange 0 n)) ++ map fst (f_vtu fs0).

Lemma zrange_max n : zrange 0 (Z.max 0 n) = zrange 0 n.
Proof. destruct (Z.le_gt_cases 0 n); [now rewrite Z.max_r|]. rewrite Z.max_l by lia. now rewrite (zrange_empty 0 n) by lia. Qed.
Lemma auto_get n given (rest : Z -> T) i : 0 <= i < n -> lget (auto n given rest) i = match given i with Some x => x | None => rest i end.
Proof. intros H. unfold auto. rewrite lget_map by exact H. reflexivity. Qed.
Lemma auto_len n given (rest : Z -> T) : length (auto n given rest) = Z.to_nat n.
Proof. unfold auto. rewrite map_length, length_zrange. f_equal. lia. Qed.

Lemma layer_args dim nx ny nz t0 t1 (mp ps : list T) : dim = 2 \/ (dim = 3 /\ 2 <= nz) -> 2 <= nx -> 2 <= ny -> mat_type_ok t0 -> mat_type_ok t1 -> (5 <= length mp)%nat -> (14 <= length ps)%nat ->
  valid_args dim nx ny nz 1 mp [t0; t1] ps.
Proof. intros. constructor; try assumption; [now right|exists t0, t1, []; auto]. Qed.

Lemma generic3 fuel q0 orc pk j dir steps nx ny nz ps fs0 : 2 <= nx -> 2 <= ny -> 2 <= nz -> 0 <= dir < 6 -> total_junk j -> (14 <= length ps)%nat ->
  match (o <- construct fuel q0 j 3 [nx; ny; nz] 1 cell_params [1; 0] ps ;;
         ' s <- drive fuel orc pk "sig = " 6 dir steps (o, construct_files o fs0) ;; Ok (0, snd (fst (fst s)), snd s)) with
  | Err e => trouble fuel q0 orc pk steps e
  | Ok (code, fs, out) => code = 0 /\
      ran fuel q0 orc pk j nx ny nz ps dir steps [TD (lget ps 0); TS " "; TD (lget ps 1); TS " "; TD (lget ps 2); TS " "; TD (lget ps 3); NL;
                     TD (lget ps 10); TS " "; TD (lget ps 11); TS " "; TD (lget ps 12); TS " "; TD (lget ps 13); NL] fs0 fs out
  end.
Proof.
  intros Hx Hy Hz Hd J Lp. pose proof (layer_args 3 nx ny nz 1 0 cell_params ps (or_intror (conj eq_refl Hz)) Hx Hy (or_intror (or_introl eq_refl)) (or_introl eq_refl) (le_n 5) Lp) as A.
  pose proof (construct_ok fuel q0 j 3 nx ny nz 1 cell_params [1; 0] ps A J) as C.
  destruct (construct fuel q0 j 3 [nx; ny; nz] 1 cell_params [1; 0] ps) as [o|e] eqn:E; cbn [bind]; [|left; exact C].
  destruct C as (_ & (tol & _ & V) & _). assert (O : is_object o) by (exists 3, nx, ny, nz, 1, cell_params, [1; 0], ps, fuel, q0, j; auto).
  pose proof (drive_ok fuel orc pk dir steps o (construct_files o fs0) O (eo_dim _ _ _ _ _ _ _ _ _ _ V) Hd eq_refl) as K.
  destruct (drive fuel orc pk "sig = " 6 dir steps (o, construct_files o fs0)) as [(((o', fs), eps), out)|e]; cbn [bind fst snd]; [|right; exact K].
  split; [reflexivity|]. destruct K as (_ & _ & s & c & K0 & K1 & K2 & K3 & K4). unfold script in K0. rewrite zrange_max in *. replace (0 <? Z.max 0 steps) with (0 <? steps) in K2 by lia.
  exists o, o', s, c. split; [exact E|]. split; [exact K0|]. split; [exact K1|]. split; [exact K2|]. split; [|exact K4]. rewrite K3. unfold construct_files. cbn [f_mats].
  destruct (eo_mats _ _ _ _ _ _ _ _ _ _ V) as (t0 & t1 & r & [= <- <- <-] & Em). rewrite Em. reflexivity.
Qed.
Theorem run_3d_1 fuel q0 orc pk j rest nx ny nz dir r fs0 : 2 <= nx -> 2 <= ny -> 2 <= nz -> 0 <= dir < 6 -> total_junk j ->
  match test3d_1 fuel q0 orc pk j rest (nx :: ny :: nz :: dir :: r) fs0 with
  | Err e => trouble fuel q0 orc pk (steps_of r) e
  | Ok (code, fs, out) => code = 0 /\
      ran fuel q0 orc pk j nx ny nz (auto 20 mats_3d_1 rest) dir (steps_of r) [TD (ofZ 1000000); TS " "; TD (odiv (ofZ 25) (ofZ 100)); TS " "; TD (ofZ 100); TS " "; TD (ofZ 200000); NL;
                            TD (ofZ 1000000); TS " "; TD (odiv (ofZ 25) (ofZ 100)); TS " "; TD (rest 12); TS " "; TD (rest 13); NL] fs0 fs out
  end.
Proof.
  intros Hx Hy Hz Hd J. pose proof (generic3 fuel q0 orc pk j dir (steps_of r) nx ny nz (auto 20 mats_3d_1 rest) fs0 Hx Hy Hz Hd J) as K.
  rewrite auto_len in K. specialize (K ltac:(lia)). rewrite !auto_get in K by lia. exact K.
Qed.
Theorem run_3d_7 fuel q0 orc pk j rest nx ny nz r fs0 : 2 <= nx -> 2 <= ny -> 2 <= nz -> total_junk j ->
  match test3d_7 fuel q0 orc pk j rest (nx :: ny :: nz :: r) fs0 with
  | Err e => trouble fuel q0 orc pk (steps_of r) e
  | Ok (code, fs, out) => code = 0 /\
      ran fuel q0 orc pk j nx ny nz (auto 20 mats_3d_7 rest) 2 (steps_of r) [TD (ofZ 1000000); TS " "; TD (odiv (ofZ 3) (ofZ 10)); TS " "; TD (ofZ 50000); TS " "; TD (ofZ 50000); NL;
                          TD (ofZ 1000000); TS " "; TD (odiv (ofZ 3) (ofZ 10)); TS " "; TD (ofZ 10000); TS " "; TD (ofZ 0); NL] fs0 fs out
  end.
Proof.
  intros Hx Hy Hz J. pose proof (generic3 fuel q0 orc pk j 2 (steps_of r) nx ny nz (auto 20 mats_3d_7 rest) fs0 Hx Hy Hz ltac:(lia) J) as K.
  rewrite auto_len in K. specialize (K ltac:(lia)). rewrite !auto_get in K by lia. exact K.
Qed.
Lemma no_trouble fuel steps e : (40 <= fuel)%nat -> ~ trouble fuel (fun _ => counting) (fun _ _ _ => counting) (fun _ => counting) steps e.
Proof. intros F [(i & H)|(t & _ & [(j & i & H)|H])]; exact (counting_good _ _ F H). Qed.
(** the counter the programmer meant: both programs end *)
Theorem ends_3d fuel j rest nx ny nz dir r fs0 : (40 <= fuel)%nat -> 2 <= nx -> 2 <= ny -> 2 <= nz -> 0 <= dir < 6 -> total_junk j ->
  (exists fs out, test3d_1 fuel (fun _ => counting) (fun _ _ _ => counting) (fun _ => counting) j rest (nx :: ny :: nz :: dir :: r) fs0 = Ok (0, fs, out)) /\
  exists fs out, test3d_7 fuel (fun _ => counting) (fun _ _ _ => counting) (fun _ => counting) j rest (nx :: ny :: nz :: r) fs0 = Ok (0, fs, out).
Proof.
  intros F Hx Hy Hz Hd J. split.
  - pose proof (run_3d_1 fuel (fun _ => counting) (fun _ _ _ => counting) (fun _ => counting) j rest nx ny nz dir r fs0 Hx Hy Hz Hd J) as K.
    destruct test3d_1 as [((code, fs), out)|e]; [destruct K as (-> & _); eauto|elim (no_trouble _ _ _ F K)].
  - pose proof (run_3d_7 fuel (fun _ => counting) (fun _ _ _ => counting) (fun _ => counting) j rest nx ny nz r fs0 Hx Hy Hz J) as K.
    destruct test3d_7 as [((code, fs), out)|e]; [destruct K as (-> & _); eauto|elim (no_trouble _ _ _ F K)].
Qed.
(** an unchecked direction *)
Theorem bad_dir fuel q0 orc pk j rest nx ny nz dir r fs0 : ~ (0 <= dir < 6) -> 0 < steps_of r ->
  forall code fs out, test3d_1 fuel q0 orc pk j rest (nx :: ny :: nz :: dir :: r) fs0 <> Ok (code, fs, out).
Proof.
  intros Hd Hn code fs out H. cbn [test3d_1] in H. apply bind_ok in H. destruct H as (o & _ & H). apply bind_ok in H. destruct H as (s & H & _).
  unfold drive in H. rewrite zrange_cons in H by lia. cbn [foldM] in H. apply bind_ok in H. destruct H as (x & H & _). unfold time_step, load_at in H.
  assert (E : arg (ltab 6 (fun _ : Z => ofZ 0)) dir = Err OOB).
  { unfold arg. destruct (Z.ltb_spec dir 0); [reflexivity|]. assert (L : (length (ltab 6 (fun _ : Z => ofZ 0 : T)) <= Z.to_nat dir)%nat) by (unfold ltab; rewrite map_length, length_zrange; lia).
    apply nth_error_None in L. rewrite L. reflexivity. }
  rewrite E in H. discriminate.
Qed.
Theorem bad_dir_oob fuel j rest nx ny nz dir r fs0 : (40 <= fuel)%nat -> 2 <= nx -> 2 <= ny -> 2 <= nz -> total_junk j -> ~ (0 <= dir < 6) -> 0 < steps_of r ->
  test3d_1 fuel (fun _ => counting) (fun _ _ _ => counting) (fun _ => counting) j rest (nx :: ny :: nz :: dir :: r) fs0 = Err OOB.
Proof.
  intros F Hx Hy Hz J Hd Hn. cbn [test3d_1].
  assert (Lp : (14 <= length (auto 20 mats_3d_1 rest))%nat) by (rewrite auto_len; lia).
  pose proof (layer_args 3 nx ny nz 1 0 cell_params (auto 20 mats_3d_1 rest) (or_intror (conj eq_refl Hz)) Hx Hy (or_intror (or_introl eq_refl)) (or_introl eq_refl) (le_n 5) Lp) as A.
  pose proof (construct_ok fuel (fun _ => counting) j 3 nx ny nz 1 cell_params [1; 0] _ A J) as C.
  destruct construct as [o|e]; [|destruct C as (i & C); elim (counting_good _ _ F C)]. cbn [bind]. clear C.
  unfold drive. rewrite zrange_cons by lia. cbn [foldM]. unfold time_step at 1, load_at.
  assert (E : arg (ltab 6 (fun _ : Z => ofZ 0)) dir = Err OOB).
  { unfold arg. destruct (Z.ltb_spec dir 0); [reflexivity|]. assert (L : (length (ltab 6 (fun _ : Z => ofZ 0 : T)) <= Z.to_nat dir)%nat) by (unfold ltab; rewrite map_length, length_zrange; lia).
    apply nth_error_None in L. rewrite L. reflexivity. }
  rewrite E. reflexivity.
Qed.

(** ** test2d_1 *)
Theorem run_2d fuel q0 orc pk j z rest nx ny r fs0 : 1 < nx -> 1 < ny -> 0 < steps_of r -> total_junk j ->
  exists e, test2d_1 fuel q0 orc pk j z rest (nx :: ny :: r) fs0 = Err e /\ (e = Uninit \/ (exists i, nbad fuel (q0 i) e) \/ exists k i, nbad fuel (orc 0 k i) e).
Proof.
  intros Hx Hy Hn J. cbn [test2d_1]. replace (negb ((1 <? nx) && (1 <? ny))) with false by lia.
  assert (Lp : (14 <= length (auto 20 mats_3d_7 rest))%nat) by (rewrite auto_len; lia).
  pose proof (layer_args 2 nx ny z 0 0 cell_params (auto 20 mats_3d_7 rest) (or_introl eq_refl) ltac:(lia) ltac:(lia) (or_introl eq_refl) (or_introl eq_refl) (le_n 5) Lp) as A.
  pose proof (construct_ok fuel q0 j 2 nx ny z 1 cell_params [0; 0] _ A J) as C.
  destruct (construct fuel q0 j 2 [nx; ny; z] 1 cell_params [0; 0] _) as [o0|e] eqn:E; cbn [bind]; [|exists e; split; [reflexivity|right; left; exact C]].
  destruct C as (_ & (tol & _ & V) & _). assert (O : is_object o0) by (exists 2, nx, ny, z, 1, cell_params, [0; 0], (auto 20 mats_3d_7 rest), fuel, q0, j; auto).
  pose proof (eo_dim _ _ _ _ _ _ _ _ _ _ V) as D. unfold drive. rewrite zrange_cons by lia. cbn [foldM].
  change (ltab 6 (fun _ => ofZ 0)) with (strain 2 0). unfold time_step at 1. rewrite (load_strain 2 0 0) by (reflexivity || lia). cbn [bind run]. set (eps := strain 2 1).
  set (fs := construct_files o0 fs0). assert (R : reaches o0 [] o0 fs) by (exists fs, []; reflexivity).
  assert (Nv : forall cs o fs, reaches o0 cs o fs -> nvoi (o_env o) = 3 /\ obj_ok o).
  { intros cs1 o1 fs1 R1. destruct (reach_inv o0 cs1 o1 fs1 O R1) as (K & (Ev & _) & _). split; [|exact K]. unfold nvoi. rewrite Ev, D. reflexivity. }
  destruct (Nv _ _ _ R) as (N0 & K0). pose proof (step_ok (SetStrain 1 eps) o0 fs K0) as S1.
  destruct (step (SetStrain 1 eps) (o0, fs)) as [((o1, fs1), r1)|e] eqn:E1.
  2:{ cbn [allowed] in S1. destruct S1 as (_ & S1). rewrite N0 in S1. unfold eps in S1. rewrite strain_len in S1. lia. }
  clear S1. pose proof (reach_step _ _ _ _ _ _ _ _ R E1) as R1. cbn [bind fst snd].
  destruct (Nv _ _ _ R1) as (N1 & K1). pose proof (step_ok (Homogenize fuel (orc 0)) o1 fs1 K1) as S2.
  destruct (step (Homogenize fuel (orc 0)) (o1, fs1)) as [((o2, fs2), r2)|e] eqn:E2; cbn [bind fst snd].
  2:{ exists e. split; [reflexivity|right; right; exact S2]. }
  clear S2. pose proof (reach_step _ _ _ _ _ _ _ _ R1 E2) as R2.
  assert (Q1 : r1 = RUnit). { cbn [step] in E1. destruct (Z.of_nat (length eps) <? nvoi (o_env o0)); [discriminate E1|]. apply bind_ok in E1. destruct E1 as (? & _ & E1). now injection E1. }
  assert (Q2 : r2 = RUnit). { cbn [step] in E2. apply bind_ok in E2. destruct E2 as (? & _ & E2). now injection E2. }
  assert (I2 : In 1 (set_ids (([] ++ [SetStrain 1 eps]) ++ [Homogenize fuel (orc 0)]))) by now left.
  assert (G2 : homogenised 1 (([] ++ [SetStrain 1 eps]) ++ [Homogenize fuel (orc 0)])).
  { apply homogenised_snoc. right. split; [now left|eauto]. }
  destruct (proj1 (results_defined o0 _ o2 fs2 1 O R2 I2) G2) as ((sig & E3 & Ls) & _). rewrite E3. subst r1 r2. cbn [bind fst snd received].
  pose proof (reach_step _ _ _ _ _ _ _ _ R2 E3) as R3.
  destruct (update_frame o0 _ o2 fs2 O R3) as (o4 & E4 & _). rewrite E4. cbn [bind fst snd]. pose proof (reach_step _ _ _ _ _ _ _ _ R3 E4) as R4.
  rewrite (info_2d o0 _ o4 fs2 1 O R4 D ltac:(now left)). exists Uninit. split; [reflexivity|now left].
Qed.
Theorem run_2d_counting fuel j z rest nx ny r fs0 : (40 <= fuel)%nat -> 1 < nx -> 1 < ny -> 0 < steps_of r -> total_junk j ->
  test2d_1 fuel (fun _ => counting) (fun _ _ _ => counting) (fun _ => counting) j z rest (nx :: ny :: r) fs0 = Err Uninit.
Proof.
  intros F Hx Hy Hn J. destruct (run_2d fuel (fun _ => counting) (fun _ _ _ => counting) (fun _ => counting) j z rest nx ny r fs0 Hx Hy Hn J) as (e & E & [->|[(i & H)|(k & i & H)]]); [exact E|..]; elim (counting_good _ _ F H).
Qed.

(** ** test3d_3.f90 *)
Theorem run_f90 fuel q0 orc (j : junk T) rest fs : total_junk j -> wrun (test3d_3_calls fuel q0 orc j rest) (None, fs) = Err OOB.
Proof. intros J. destruct (tj_tol j J) as (tol & E). unfold test3d_3_calls. cbn [wrun wstep]. unfold construct, make_env. rewrite E. reflexivity. Qed.

(** ** test3d_8 *)
Lemma files_set id eps o fs o' fs' r : step (SetStrain id eps) (o, fs) = Ok (o', fs', r) -> fs' = fs.
Proof. intros H. cbn [step] in H. destruct (Z.of_nat (length eps) <? nvoi (o_env o)); [discriminate H|]. apply bind_ok in H. destruct H as (? & _ & H). now injection H. Qed.
Lemma files_hom fuel orc o fs o' fs' r : step (Homogenize fuel orc) (o, fs) = Ok (o', fs', r) -> fs' = fs.
Proof. intros H. cbn [step] in H. apply bind_ok in H. destruct H as (? & _ & H). now injection H. Qed.
Lemma set1 o0 cs o fs id k : is_object o0 -> reaches o0 cs o fs -> v_dim (o_env o0) = 3 ->
  exists o', step (SetStrain id (strain 2 k)) (o, fs) = Ok (o', fs, RUnit) /\ reaches o0 (cs ++ [SetStrain id (strain 2 k)]) o' fs.
Proof.
  intros O R D. destruct (reach_inv o0 cs o fs O R) as (K & (Ev & _) & _). pose proof (step_ok (SetStrain id (strain 2 k)) o fs K) as S1.
  destruct (step (SetStrain id (strain 2 k)) (o, fs)) as [((o1, fs1), r1)|e] eqn:E1.
  - pose proof (files_set _ _ _ _ _ _ _ E1). subst fs1. pose proof (reach_step _ _ _ _ _ _ _ _ R E1) as R1. exists o1. split; [|exact R1].
    cbn [step] in E1. destruct (Z.of_nat (length _) <? nvoi (o_env o)); [discriminate E1|]. apply bind_ok in E1. destruct E1 as (? & _ & E1). now injection E1 as <- <-.
  - cbn [allowed] in S1. destruct S1 as (_ & S1). unfold nvoi in S1. rewrite strain_len, Ev, D in S1. cbn in S1. lia.
Qed.
(** the calls of one turn *)
Definition turn8 (fuel : nat) (orc : Z -> Z -> Z -> peek) (t : Z) : list (call T) :=
  [SetStrain 0 (strain 2 (S (Z.to_nat t))); SetStrain 1 (strain 2 (S (Z.to_nat t))); Homogenize fuel (orc t); GetStress 0; GetStress 1; UpdateVars; WriteInfo].
Definition replies8 (l0 l1 : list T) : list (reply T) := [RUnit; RUnit; RUnit; RBuf (Some l0); RBuf (Some l1); RUnit; RUnit].
(** what a turn prints: the strain and the stress of both points *)
Definition row8 (gp : Z) (name : string) (l : list T) : toks := [TS "gp = "; TI gp; TS name] ++ flat_map (fun x => [TD x; TS " "]) l ++ [NL].
Definition text8 (t : Z) (eps l0 l1 : list T) : toks :=
  [TS "Time step = "; TI t; NL; TS "setting strains ..."; NL] ++ row8 0 " eps = " eps ++ row8 1 " eps = " eps ++
  [TS "Homogenizing ..."; NL; TS "Getting stresses ..."; NL] ++ row8 0 " sig = " l0 ++ row8 1 " sig = " l1 ++ [NL].
Lemma turn8_ok fuel orc t o0 cs o fs out : is_object o0 -> reaches o0 cs o fs -> v_dim (o_env o0) = 3 -> (forall id, In id (set_ids cs) -> id = 0 \/ id = 1) -> 0 <= t ->
  match time_step_8 fuel orc (o, fs, strain 2 (Z.to_nat t), out) t with
  | Err e => exists j i, nbad fuel (orc t j i) e
  | Ok (o', fs', eps, out') => eps = strain 2 (S (Z.to_nat t)) /\ f_mats fs' = f_mats fs /\ f_vtu fs' = f_vtu fs /\
      exists l0 l1, run (turn8 fuel orc t) (o, fs) = Ok (o', fs', replies8 l0 l1) /\ out' = out ++ text8 t (strain 2 (S (Z.to_nat t))) l0 l1
  end.
Proof.
  intros O R D Ids Ht. unfold time_step_8. rewrite load_strain by (lia || reflexivity). cbn [bind]. set (eps := strain 2 (S (Z.to_nat t))).
  unfold set_both. cbn [foldM run fst snd]. destruct (set1 o0 cs o fs 0 (S (Z.to_nat t)) O R D) as (o1 & E1 & R1). fold eps in E1, R1. rewrite E1. cbn [bind fst snd].
  destruct (set1 o0 _ o1 fs 1 (S (Z.to_nat t)) O R1 D) as (o2 & E2 & R2). fold eps in E2, R2. rewrite E2. cbn [bind fst snd].
  destruct (reach_inv o0 _ o2 fs O R2) as (K2 & _). pose proof (step_ok (Homogenize fuel (orc t)) o2 fs K2) as S3.
  destruct (step (Homogenize fuel (orc t)) (o2, fs)) as [((o3, fs3), r3)|e] eqn:E3; cbn [bind fst snd]; [|exact S3]. clear S3.
  pose proof (files_hom _ _ _ _ _ _ _ E3). subst fs3. pose proof (reach_step _ _ _ _ _ _ _ _ R2 E3) as R3. unfold get_both. cbn [foldM run fst snd].
  set (cs3 := ((cs ++ [SetStrain 0 eps]) ++ [SetStrain 1 eps]) ++ [Homogenize fuel (orc t)]) in *.
  assert (Si : set_ids cs3 = set_ids cs ++ [0; 1]) by (unfold cs3; rewrite !set_ids_app; cbn; rewrite app_nil_r, <- app_assoc; reflexivity).
  assert (H3 : forall id, In id (set_ids cs3) -> homogenised id cs3).
  { intros id Hi. unfold cs3. apply homogenised_snoc. right. split; [|eauto]. unfold cs3 in Hi. rewrite set_ids_app in Hi. cbn in Hi. rewrite app_nil_r in Hi. exact Hi. }
  assert (Ids3 : forall id, In id (set_ids cs3) -> id = 0 \/ id = 1).
  { intros id Hi. rewrite Si in Hi. apply in_app_or in Hi. destruct Hi as [Hi|[<-|[<-|[]]]]; auto. }
  assert (In0 : In 0 (set_ids cs3)) by (rewrite Si; apply in_or_app; right; now left).
  assert (In1 : In 1 (set_ids cs3)) by (rewrite Si; apply in_or_app; right; right; now left).
  assert (N3 : nvoi (o_env o3) = 6). { destruct (reach_inv o0 _ o3 fs O R3) as (_ & (Ev & _) & _). unfold nvoi. rewrite Ev, D. reflexivity. }
  destruct (proj1 (results_defined o0 cs3 o3 fs 0 O R3 In0) (H3 0 In0)) as ((l0 & G0 & L0) & _). rewrite G0. cbn [bind fst snd received]. rewrite nth_sig by lia. cbn [bind fst snd].
  destruct (proj1 (results_defined o0 cs3 o3 fs 1 O R3 In1) (H3 1 In1)) as ((l1 & G1 & L1) & _). rewrite G1. cbn [bind fst snd received]. rewrite nth_sig by lia. cbn [bind fst snd].
  pose proof (reach_step _ _ _ _ _ _ _ _ R3 G0) as R30. pose proof (reach_step _ _ _ _ _ _ _ _ R30 G1) as R31.
  destruct (update_frame o0 _ o3 fs O R31) as (o4 & E4 & _). rewrite E4. cbn [bind fst snd]. pose proof (reach_step _ _ _ _ _ _ _ _ R31 E4) as R4.
  destruct (info_3d o0 _ o4 fs O R4 D) as (o5 & fs5 & E5).
  { intros id Hi. rewrite !set_ids_app in Hi. cbn [set_ids flat_map] in Hi. rewrite !app_nil_r in Hi. do 3 (apply homogenised_snoc; left). now apply H3. }
  rewrite E5. cbn [bind fst snd]. pose proof (reach_step _ _ _ _ _ _ _ _ R4 E5) as R5.
  assert (W5 : write_info_files o4 fs = Ok (o5, fs5)). { cbn [step] in E5. apply bind_ok in E5. destruct E5 as (q & Eq & E5). injection E5 as ->. exact Eq. }
  destruct (info_inv _ _ _ _ W5) as (_ & _ & Y1 & Y2 & _). split; [reflexivity|]. split; [exact Y1|]. split; [exact Y2|].
  assert (Q3 : r3 = RUnit). { cbn [step] in E3. apply bind_ok in E3. destruct E3 as (? & _ & E3). now injection E3. }
  exists l0, l1. split.
  - unfold turn8, replies8. fold eps. cbn [run]. rewrite E1. cbn [bind fst snd]. rewrite E2. cbn [bind fst snd]. rewrite E3. cbn [bind fst snd]. rewrite G0. cbn [bind fst snd].
    rewrite G1. cbn [bind fst snd]. rewrite E4. cbn [bind fst snd]. rewrite E5. cbn [bind fst snd]. rewrite Q3. reflexivity.
  - unfold text8, row8, columns, sp. fold eps. rewrite <- !app_assoc. reflexivity.
Qed.
Lemma mats8_len : length (mats_3d_8 : list T) = 20%nat. Proof. reflexivity. Qed.
Theorem run_3d_8 fuel q0 orc j nx ny nz r fs0 : 1 < nx -> 1 < ny -> 1 < nz -> total_junk j ->
  match test3d_8 fuel q0 orc j (nx :: ny :: nz :: r) fs0 with
  | Err e => (exists i, nbad fuel (q0 i) e) \/ exists t k i, 0 <= t < steps_of r /\ nbad fuel (orc t k i) e
  | Ok (code, fs, out) => code = 0 /\ f_vtu fs = f_vtu fs0 /\
      (exists o0 o (s0 s1 : Z -> list T), construct fuel q0 j 3 [nx; ny; nz] 1 cell_params_8 [1; 0] mats_3d_8 = Ok o0 /\
        run (flat_map (turn8 fuel orc) (zrange 0 (steps_of r))) (o0, construct_files o0 fs0) = Ok (o, fs, flat_map (fun t => replies8 (s0 t) (s1 t)) (zrange 0 (steps_of r))) /\
        out = flat_map (fun t => text8 t (strain 2 (S (Z.to_nat t))) (s0 t) (s1 t)) (zrange 0 (steps_of r))) /\
      f_mats fs = [TD (ofZ 1000000); TS " "; TD (odiv (ofZ 3) (ofZ 10)); TS " "; TD (ofZ 50000); TS " "; TD (ofZ 50000); NL;
                   TD (ofZ 0); TS " "; TD (ofZ 0); TS " "; TD (ofZ 0); TS " "; TD (ofZ 0); NL]
  end.
Proof.
  intros Hx Hy Hz J. cbn [test3d_8]. replace (negb ((1 <? nx) && (1 <? ny) && (1 <? nz))) with false by lia.
  assert (Lp : (14 <= length (mats_3d_8 : list T))%nat) by (rewrite mats8_len; lia).
  assert (A : valid_args 3 nx ny nz 1 (cell_params_8 : list T) [1; 0] mats_3d_8) by (apply layer_args; try lia; [right; now left|now left|cbn; lia]).
  pose proof (construct_ok fuel q0 j 3 nx ny nz 1 cell_params_8 [1; 0] mats_3d_8 A J) as C.
  destruct (construct fuel q0 j 3 [nx; ny; nz] 1 cell_params_8 [1; 0] mats_3d_8) as [o0|e] eqn:E; cbn [bind]; [|left; exact C].
  destruct C as (_ & (tol & _ & V) & _). assert (O : is_object o0) by (exists 3, nx, ny, nz, 1, cell_params_8, [1; 0], mats_3d_8, fuel, q0, j; auto).
  pose proof (eo_dim _ _ _ _ _ _ _ _ _ _ V) as D. set (fs1 := construct_files o0 fs0). change (ltab 6 (fun _ => ofZ 0)) with (strain 7 0).
  assert (Z0 : (strain 7 0 : list T) = strain 2 0) by (unfold strain; apply map_ext; intros i; cbn [level]; destruct (i =? 7), (i =? 2); reflexivity). rewrite Z0. clear Z0.
  assert (H : forall n, 0 <= n -> match foldM (time_step_8 fuel orc) (zrange 0 n) (o0, fs1, strain 2 0, []) with
    | Err e => exists t k i, 0 <= t < n /\ nbad fuel (orc t k i) e
    | Ok (o, fs, eps, out) => eps = strain 2 (Z.to_nat n) /\ f_mats fs = f_mats fs1 /\ f_vtu fs = f_vtu fs1 /\
      exists s0 s1 : Z -> list T, run (flat_map (turn8 fuel orc) (zrange 0 n)) (o0, fs1) = Ok (o, fs, flat_map (fun t => replies8 (s0 t) (s1 t)) (zrange 0 n)) /\
        out = flat_map (fun t => text8 t (strain 2 (S (Z.to_nat t))) (s0 t) (s1 t)) (zrange 0 n) end).
  { apply natlike_ind.
    - change (zrange 0 0) with (@nil Z). cbn [foldM]. repeat (split; [reflexivity|]). exists (fun _ => []), (fun _ => []). split; reflexivity.
    - intros n Hn IH. unfold Z.succ. rewrite zrange_snoc by lia. rewrite foldM_snoc. destruct (foldM _ (zrange 0 n) _) as [(((o, fs), eps), out)|e]; cbn [bind].
      2:{ destruct IH as (t & k & i & Ht & H). exists t, k, i. split; [lia|exact H]. }
      destruct IH as (-> & M & F & s0 & s1 & Rn & ->). assert (R : reaches o0 (flat_map (turn8 fuel orc) (zrange 0 n)) o fs) by (exists fs1; eexists; exact Rn).
      set (out := flat_map _ (zrange 0 n)). pose proof (turn8_ok fuel orc n o0 _ o fs out O R D) as K.
      assert (Ids : forall id, In id (set_ids (flat_map (turn8 fuel orc) (zrange 0 n))) -> id = 0 \/ id = 1).
      { clear. induction (zrange 0 n) as [|t l IH]; [intros id []|]. cbn [flat_map]. intros id Hi. rewrite set_ids_app in Hi. apply in_app_or in Hi. destruct Hi as [Hi|Hi]; [|now apply IH]. cbn in Hi. intuition. }
      specialize (K Ids Hn).
      destruct (time_step_8 fuel orc _ n) as [(((o', fs'), eps'), out')|e].
      + destruct K as (-> & M' & F' & l0 & l1 & R' & ->). split; [f_equal; lia|]. split; [congruence|]. split; [congruence|].
        exists (fun t => if t =? n then l0 else s0 t), (fun t => if t =? n then l1 else s1 t). rewrite !flat_map_app. cbn [flat_map]. rewrite !app_nil_r, !Z.eqb_refl.
        assert (X : forall {B} (f : list T -> list T -> Z -> list B), flat_map (fun t => f (if t =? n then l0 else s0 t) (if t =? n then l1 else s1 t) t) (zrange 0 n) = flat_map (fun t => f (s0 t) (s1 t) t) (zrange 0 n)).
        { intros B f. apply flat_ext. intros t Ht. apply in_zrange in Ht. destruct (Z.eqb_spec t n); [lia|reflexivity]. }
        split; [rewrite (run_then _ _ _ _ _ _ _ _ _ Rn R'); do 2 f_equal; f_equal; symmetry; exact (X _ (fun a b _ => replies8 a b))|].
        f_equal. symmetry. exact (X _ (fun a b t => text8 t (strain 2 (S (Z.to_nat t))) a b)).
      + destruct K as (k & i & K). exists n, k, i. split; [lia|exact K]. }
  specialize (H (Z.max 0 (steps_of r)) ltac:(lia)). rewrite zrange_max in H.
  destruct (foldM _ (zrange 0 (steps_of r)) _) as [(((o, fs), eps), out)|e]; cbn [bind fst snd].
  2:{ right. destruct H as (t & k & i & Ht & H). exists t, k, i. split; [lia|exact H]. }
  destruct H as (_ & M & F & s0 & s1 & R & Eo). split; [reflexivity|]. split; [rewrite F; reflexivity|]. split; [exists o0, o, s0, s1; auto|]. rewrite M. unfold fs1, construct_files. cbn [f_mats].
  destruct (eo_mats _ _ _ _ _ _ _ _ _ _ V) as (t0 & t1 & r' & [= <- <- <-] & Em). rewrite Em. reflexivity.
Qed.
Theorem ends_3d_8 fuel j nx ny nz r fs0 : (40 <= fuel)%nat -> 1 < nx -> 1 < ny -> 1 < nz -> total_junk j ->
  exists fs out, test3d_8 fuel (fun _ => counting) (fun _ _ _ => counting) j (nx :: ny :: nz :: r) fs0 = Ok (0, fs, out).
Proof.
  intros F Hx Hy Hz J. pose proof (run_3d_8 fuel (fun _ => counting) (fun _ _ _ => counting) j nx ny nz r fs0 Hx Hy Hz J) as K.
  destruct test3d_8 as [((code, fs), out)|e]; [destruct K as (-> & _); eauto|]. destruct K as [(i & H)|(t & k & i & _ & H)]; elim (counting_good _ _ F H).
Qed.
End D.
