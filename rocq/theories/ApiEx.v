(** Cases of the object properties on a one-cell object: a point set but not homogenised, a
    point on the linear path, a failing call. *)
From Coq Require Import Reals Lra ZifyBool.
From Verif Require Import Base Scalar EllSpec EllModel AssemblyModel AsmPure AsmSpec AsmProps AsmCases PlastRef MicroModel OutputModel NewtonBase ApiBase ApiRun ApiHist Build ApiExact ApiSpec ApiProps ApiCases ApiCommit OneCell.
Open Scope Z_scope.
Open Scope R_scope.

Lemma not_yet : exists (o0 : obj R) o fs, is_object o0 /\ reaches o0 load o fs /\ In 1%Z (set_ids load) /\ ~ homogenised 1 load.
Proof.
  destruct (flat_object 0 1 1) as (o0 & O & _). destruct (load_point o0 O) as (o & fs & g & R & _).
  exists o0, o, fs. split; [exact O|]. split; [exact R|]. split; [left; reflexivity|].
  intros (a & e & b & f & q & E & I). unfold load in E. destruct a as [|c [|c' a]]; cbn in E; [|discriminate|discriminate]. injection E as _ <-. destruct I.
Qed.

Lemma on_shortcut : exists (o0 : obj R) o fs g o' fs' r, is_object o0 /\ reaches o0 load o fs /\ lookup 1 (o_gps o) = Some g /\ g_n g = None /\ below o g /\
  (exists i, lget (shear 2) i <> 0 /\ oval (g_strain g) i = lget (shear 2) i) /\
  (forall g', In g' (o_gps o) -> g_n g' = None /\ below o g') /\ step hom (o, fs) = Ok (o', fs', r).
Proof.
  destruct (flat_object 0 1 1) as (o0 & O & C & H). destruct (load_point o0 O) as (o & fs & g & R & L & N & E & Ec & St).
  rewrite (cell_nvoi _ _ _ _ C) in St. rewrite <- E in C.
  assert (SC : shear_ctan 0 1 (o_ctan o)) by (intros v Hv; rewrite Ec, H, bump3 by lia; reflexivity).
  assert (B : below o g) by (apply (shear_below 0 1 1); try assumption; lra).
  assert (All : forall g', In g' (o_gps o) -> g_n g' = None /\ below o g').
  { destruct (keyed_store o0 load o fs O R) as (M & _). change (map g_id (o_gps o) = [1%Z]) in M.
    destruct (o_gps o) as [|g0 [|g1 l]] eqn:Eg; try discriminate. intros g' [<-|[]]. cbn in M. injection M as M.
    cbn in L. rewrite M, Z.eqb_refl in L. injection L as ->. auto. }
  destruct (all_linear o0 load o fs fuel40 cnt2 O R All) as (o' & r & S & _).
  exists o0, o, fs, g, o', fs, r. do 5 (split; [assumption|]). split; [|split; [exact All|exact S]].
  exists 3%Z. split; [rewrite shear_get by lia; cbn; lra|apply St; lia].
Qed.

(** calls that fail, one for each clause of the safety theorem *)
Lemma failures : exists (o0 : obj R) fs0, is_object o0 /\
  run [SetStrain 1 [0]] (o0, fs0) = Err OOB /\ run [SetStrain 1 (shear 2); GetStress 1] (o0, fs0) = Err Uninit.
Proof.
  destruct (flat_object 0 1 1) as (o0 & O & C & _). exists o0, no_files. split; [exact O|].
  pose proof (cell_nvoi _ _ _ _ C) as NV. split.
  - cbn [run step]. rewrite NV. reflexivity.
  - destruct (load_point o0 O) as (o & fs & g & _).
    destruct (run load (o0, no_files)) as [((o2, fs2), rs2)|e] eqn:E.
    + change [SetStrain 1 (shear 2); GetStress 1] with (load ++ [GetStress (T := R) 1]). rewrite run_app, E. cbn [bind fst snd run].
      assert (R2 : reaches o0 load o2 fs2) by (exists no_files, rs2; exact E).
      destruct (results_defined o0 load o2 fs2 1%Z O R2 ltac:(left; reflexivity)) as (_ & N). destruct N as (N & _).
      { destruct not_yet as (_ & _ & _ & _ & _ & _ & X). exact X. }
      rewrite N. reflexivity.
    + destruct (safe o0 no_files load e O E) as (a & c & b & Q & X). destruct a as [|? [|]]; cbn in Q; try discriminate. injection Q as <- _.
      destruct X as (_ & X). rewrite NV in X. cbn in X. lia.
Qed.
