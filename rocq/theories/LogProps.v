(** The three log files of write_info_files. *)
From Coq Require Import String ZifyBool.
From Verif Require Import Base Scalar EllSpec EllInit EllModel EllAsm EllFinal Grid AssemblyModel AsmPure AsmRun MicroModel OutputModel NewtonBase FieldsBase ApiBase ApiRun ApiHist ApiExact Build ApiSpec ApiProps VtuProps.
Open Scope string_scope.
Open Scope list_scope.
Open Scope Z_scope.

Section Log.
Context {T : Type} `{OT : Ops T}.
Implicit Types (V : env T) (o : obj T) (cs : list (call T)) (g : gp T).
Notation toks := (list (tok T)).

(** the call sequences before each write_info_files of cs *)
Fixpoint infos (pre cs : list (call T)) : list (list (call T)) :=
  match cs with
  | [] => []
  | c :: r => (match c with WriteInfo => [pre] | _ => [] end) ++ infos (pre ++ [c]) r
  end.
(** what one Gauss point contributes to each file *)
Definition ival (a : arr Z) (i : Z) : Z := match aget a i with Some x => x | None => 0 end.
Definition conv_group V g : toks :=
  [TI (match g_n g with None => 0 | Some _ => 1 end); TS " "; TD (g_inv g); TS " "]
  ++ flat_map (fun i => [TI (ival (g_its g) i); TS " "; TD (oval (g_err g) i); TS " "]) (zrange 0 (1 + nvoi V)) ++ [TS " | "].
Definition esc_group g : toks :=
  flat_map (fun x => [TD x; TS " "]) (map (oval (g_strain g)) (zrange 0 6) ++ map (oval (g_stress g)) (zrange 0 6) ++ map (oval (g_ctan g)) (zrange 0 36)) ++ [TS " | "].
Definition var_at g (i : Z) : T := match g_n g with Some n => oval n i | None => dec 0 1 end.
Definition vars_group V g : toks := flat_map (fun i => [TD (var_at g i); TS " "]) (zrange 0 (nvars V)) ++ [TS " | "].
Definition line (group : gp T -> toks) o : toks := flat_map group (o_gps o) ++ [NL].
(** every value printed has been set *)
Definition set_upto {A} (a : arr A) (n : Z) : Prop := forall i, 0 <= i < n -> exists x, aget a i = Some x.
Definition printable V g : Prop :=
  set_upto (g_its g) (1 + nvoi V) /\ set_upto (g_err g) (1 + nvoi V) /\ set_upto (g_strain g) 6 /\ set_upto (g_stress g) 6 /\ set_upto (g_ctan g) 36 /\
  (forall n, g_n g = Some n -> set_upto n (nvars V)).
(** the headers, written for the ids known then *)
Definition conv_header (ids : list Z) : toks :=
  TS "# gp_id : " :: flat_map (fun i => [TI i; TS " "]) ids ++ [NL; TS "# nl_flag [1] # inv_max [2] # inv_tol [3]"; NL; TS "# nr_its  [4] # nr_tol  [5]"; NL].
Definition esc_header (ids : list Z) : toks :=
  TS "# gp_id : " :: flat_map (fun i => [TI i; TS " "]) ids ++ [TS "# epsxx [1] # epsyy [2] # epszz[3] # epsxy[4] # epsxz[5] # epsyz[6]";
    TS "# sigxx [7] # sigyy [2] # sigzz[3] # sigxy[4] # sigxz[5] # sigyz[6]"; NL; NL].
Definition head_of {A} (h : A -> toks) (l : list A) : toks := match l with [] => [] | a :: _ => h a end.

Lemma infos_snoc c cs pre : infos pre (cs ++ [c]) = infos pre cs ++ match c with WriteInfo => [pre ++ cs] | _ => [] end.
Proof.
  revert pre. induction cs as [|d cs IH]; intros pre; cbn [app infos]; [rewrite !app_nil_r; reflexivity|]. rewrite IH, app_assoc. f_equal. now rewrite <- app_assoc.
Qed.
Lemma rd_z (a : arr Z) i x : rd a i = Ok x -> aget a i = Some x.
Proof. unfold rd, aget. destruct (inb a i); [|discriminate]. destruct FMapPositive.PositiveMap.find; [intros [= ->]; reflexivity|discriminate]. Qed.
Lemma flat_ext {A B} (f g : A -> list B) l : (forall x, In x l -> f x = g x) -> flat_map f l = flat_map g l.
Proof. intros H. induction l as [|a l IH]; [reflexivity|]. cbn [flat_map]. rewrite (H a) by now left. f_equal. apply IH. intros; apply H; now right. Qed.
Lemma rdl_inv (a : arr T) n l : rdl a n = Ok l -> set_upto a n /\ l = map (oval a) (zrange 0 n).
Proof.
  intros H. unfold rdl in H. assert (S : set_upto a n).
  { intros i Hi. assert (I : In i (zrange 0 n)) by now apply in_zrange. clear Hi. revert l H I. induction (zrange 0 n) as [|b l0 IH]; intros l H I; [destruct I|].
    cbn [mapM] in H. apply bind_ok in H. destruct H as (x & E & H). apply bind_ok in H. destruct H as (y & E2 & _). destruct I as [<-|I]; [exists x; now apply rd_some|exact (IH y E2 I)]. }
  split; [exact S|]. rewrite (ApiBase.mapM_ok _ (oval a)) in H; [now injection H|]. intros i Hi. apply in_zrange in Hi. destruct (S i Hi) as (x & E). unfold oval. rewrite E. now apply rd_aget.
Qed.

Lemma info_inv o fs o' fs' : write_info_files o fs = Ok (o', fs') ->
  (forall g, In g (o_gps o) -> printable (o_env o) g) /\ o' = with_header o /\ f_mats fs' = f_mats fs /\ f_vtu fs' = f_vtu fs /\
  f_conv fs' = f_conv fs ++ (if o_header o then [] else conv_header (map g_id (o_gps o))) ++ line (conv_group (o_env o)) o /\
  f_esc fs' = f_esc fs ++ (if o_header o then [] else esc_header (map g_id (o_gps o))) ++ line esc_group o /\
  f_vars fs' = f_vars fs ++ line (vars_group (o_env o)) o.
Proof.
  intros H. unfold write_info_files in H.
  assert (Hh : (if o_header o then ([], []) else (conv_head o, esc_head o)) = ((if o_header o then [] else conv_header (map g_id (o_gps o))), (if o_header o then [] else esc_header (map g_id (o_gps o))))).
  { destruct (o_header o); [reflexivity|]. unfold conv_head, esc_head, ids_toks, conv_header, esc_header. rewrite !flat_map_concat_map, !map_map. reflexivity. }
  rewrite Hh in H. clear Hh. set (h1 := if o_header o then [] else conv_header _) in *. set (h2 := if o_header o then [] else esc_header _) in *.
  apply bind_ok in H. destruct H as (l1 & E1 & H). apply bind_ok in H. destruct H as (l2 & E2 & H). apply bind_ok in H. destruct H as (l3 & E3 & H). injection H as <- <-.
  unfold conv_line in E1. apply bind_ok in E1. destruct E1 as (t1 & E1 & X1). injection X1 as <-. apply emit_inv in E1. destruct E1 as (g1 & G1 & ->).
  unfold esc_line in E2. apply bind_ok in E2. destruct E2 as (t2 & E2 & X2). injection X2 as <-. apply emit_inv in E2. destruct E2 as (g2 & G2 & ->).
  unfold vars_line in E3. apply bind_ok in E3. destruct E3 as (t3 & E3 & X3). injection X3 as <-. apply emit_inv in E3. destruct E3 as (g3 & G3 & ->).
  assert (A1 : forall g, In g (o_gps o) -> set_upto (g_its g) (1 + nvoi (o_env o)) /\ set_upto (g_err g) (1 + nvoi (o_env o)) /\ g1 g = conv_group (o_env o) g).
  { intros g Hg. specialize (G1 g Hg). apply bind_ok in G1. destruct G1 as (t & E & G1). injection G1 as <-. apply emit_inv in E. destruct E as (q & Q & ->).
    assert (P : forall i, In i (zrange 0 (1 + nvoi (o_env o))) -> exists n e, aget (g_its g) i = Some n /\ aget (g_err g) i = Some e /\ q i = [TI n; sp; TD e; sp]).
    { intros i Hi. specialize (Q i Hi). apply bind_ok in Q. destruct Q as (n & En & Q). apply bind_ok in Q. destruct Q as (e & Ee & Q). injection Q as Q. exists n, e. split; [now apply rd_z|]. split; [now apply rd_some|now symmetry]. }
    split; [intros i Hi; destruct (P i (proj2 (in_zrange _ _ _) Hi)) as (n & _ & E & _); now exists n|].
    split; [intros i Hi; destruct (P i (proj2 (in_zrange _ _ _) Hi)) as (_ & e & _ & E & _); now exists e|].
    unfold conv_group. cbn [app]. do 4 f_equal. apply (f_equal (fun l => l ++ [TS " | "])). apply flat_ext. intros i Hi. destruct (P i Hi) as (n & e & En & Ee & ->). unfold ival, oval. now rewrite En, Ee. }
  assert (A2 : forall g, In g (o_gps o) -> set_upto (g_strain g) 6 /\ set_upto (g_stress g) 6 /\ set_upto (g_ctan g) 36 /\ g2 g = esc_group g).
  { intros g Hg. specialize (G2 g Hg). apply bind_ok in G2. destruct G2 as (e & Ee & G2). apply bind_ok in G2. destruct G2 as (s & Es & G2). apply bind_ok in G2. destruct G2 as (c & Ec & G2). injection G2 as <-.
    apply rdl_inv in Ee. apply rdl_inv in Es. apply rdl_inv in Ec. destruct Ee as (P1 & ->). destruct Es as (P2 & ->). destruct Ec as (P3 & ->). auto. }
  assert (A3 : forall g, In g (o_gps o) -> (forall n, g_n g = Some n -> set_upto n (nvars (o_env o))) /\ g3 g = vars_group (o_env o) g).
  { intros g Hg. specialize (G3 g Hg). apply bind_ok in G3. destruct G3 as (t & E & G3). injection G3 as <-. apply emit_inv in E. destruct E as (q & Q & ->).
    assert (P : forall i, In i (zrange 0 (nvars (o_env o))) -> (forall n, g_n g = Some n -> exists x, aget n i = Some x) /\ q i = [TD (var_at g i); sp]).
    { intros i Hi. specialize (Q i Hi). unfold var_at. destruct (g_n g) as [n|].
      - apply bind_ok in Q. destruct Q as (x & Ex & Q). injection Q as Q. apply rd_some in Ex. split; [intros n' [= <-]; now exists x|]. unfold oval. rewrite Ex. now symmetry.
      - cbn [bind] in Q. injection Q as Q. split; [discriminate|now symmetry]. }
    split; [intros n En i Hi; exact (proj1 (P i (proj2 (in_zrange _ _ _) Hi)) n En)|]. unfold vars_group. f_equal. apply flat_ext. intros i Hi. now apply P. }
  split; [intros g Hg; destruct (A1 g Hg) as (P1 & P2 & _); destruct (A2 g Hg) as (P3 & P4 & P5 & _); destruct (A3 g Hg) as (P6 & _); repeat split; assumption|].
  split; [reflexivity|]. cbn [f_mats f_vtu f_conv f_esc f_vars]. split; [reflexivity|]. split; [reflexivity|]. unfold line.
  rewrite (flat_ext g1 (conv_group (o_env o))) by (intros; now apply A1). rewrite (flat_ext g2 esc_group) by (intros; now apply A2). rewrite (flat_ext g3 (vars_group (o_env o))) by (intros; now apply A3). auto.
Qed.
Lemma quiet_step c o fs o' fs' r : c <> WriteInfo -> step c (o, fs) = Ok (o', fs', r) ->
  o_header o' = o_header o /\ f_mats fs' = f_mats fs /\ f_conv fs' = f_conv fs /\ f_esc fs' = f_esc fs /\ f_vars fs' = f_vars fs.
Proof.
  intros N H. destruct c; cbn [step] in H; try contradiction.
  - destruct (_ <? _); [discriminate|]. apply bind_ok in H. destruct H as (l & _ & H). injection H as <- <- _. auto.
  - apply bind_ok in H. destruct H as (l & _ & H). injection H as <- <- _. auto.
  - apply bind_ok in H. destruct H as (l & _ & H). injection H as <- <- _. auto.
  - injection H as <- <- _. auto.
  - apply bind_ok in H. destruct H as (o1 & E & H). injection H as <- <- _. unfold homogenize in E. apply bind_ok in E. destruct E as (q & _ & E). repeat (destruct q as (q & ?)). injection E as <-. auto.
  - apply bind_ok in H. destruct H as (o1 & E & H). injection H as <- <- _. unfold update_vars in E. apply bind_ok in E. destruct E as (q & _ & E). injection E as <-. auto.
  - apply bind_ok in H. destruct H as (q & E & H). injection H as -> _. unfold output in E. destruct (lookup id (o_gps o)); [|injection E as <- <-; auto].
    do 4 (apply bind_ok in E; destruct E as (? & _ & E)). apply bind_ok in E. destruct E as (? & _ & E). apply bind_ok in E. destruct E as (? & _ & E). injection E as <- <-. auto.
Qed.

Theorem logs o0 cs o fs0 fs rs : is_object o0 -> run cs (o0, construct_files o0 fs0) = Ok (o, fs, rs) ->
  exists os, Forall2 (fun a oa => (exists fa, reaches o0 a oa fa) /\ map g_id (o_gps oa) = first_use (set_ids a) /\ forall g, In g (o_gps oa) -> printable (o_env o0) g) (infos [] cs) os /\
    f_conv fs = head_of (fun a => conv_header (first_use (set_ids a))) (infos [] cs) ++ flat_map (line (conv_group (o_env o0))) os /\
    f_esc fs = head_of (fun a => esc_header (first_use (set_ids a))) (infos [] cs) ++ flat_map (line esc_group) os /\
    f_vars fs = flat_map (line (vars_group (o_env o0))) os.
Proof.
  intros O. revert o fs rs.
  assert (H0 : o_header o0 = false).
  { destruct O as (dim & nx & ny & nz & mtype & mp & mt & ps & fuel & orc & j & A & J & E). pose proof (construct_ok fuel orc j dim nx ny nz mtype mp mt ps A J) as H. rewrite E in H. tauto. }
  assert (G : forall o fs rs, run cs (o0, construct_files o0 fs0) = Ok (o, fs, rs) -> o_header o = match infos [] cs with [] => false | _ => true end /\
    exists os, Forall2 (fun a oa => (exists fa, reaches o0 a oa fa) /\ map g_id (o_gps oa) = first_use (set_ids a) /\ forall g, In g (o_gps oa) -> printable (o_env o0) g) (infos [] cs) os /\
    f_conv fs = head_of (fun a => conv_header (first_use (set_ids a))) (infos [] cs) ++ flat_map (line (conv_group (o_env o0))) os /\
    f_esc fs = head_of (fun a => esc_header (first_use (set_ids a))) (infos [] cs) ++ flat_map (line esc_group) os /\
    f_vars fs = flat_map (line (vars_group (o_env o0))) os).
  { induction cs as [|c cs IH] using rev_ind; intros o fs rs H.
    - cbn [run] in H. injection H as <- <- <-. split; [exact H0|]. exists []. repeat split. constructor.
    - apply run_snoc in H. destruct H as ((o1, fs1) & rs1 & r & H1 & H2 & _). destruct (IH _ _ _ H1) as (Hh & os & F & C1 & C2 & C3). rewrite infos_snoc.
      assert (Dc : c = WriteInfo \/ c <> WriteInfo) by (destruct c; (now left) || (right; discriminate)). destruct Dc as [->|N].
      + cbn [app]. cbn [step] in H2. apply bind_ok in H2. destruct H2 as (q & Ew & H2). injection H2 as -> _. 
        assert (R1 : reaches o0 cs o1 fs1) by (exists (construct_files o0 fs0), rs1; exact H1). destruct (reach_inv o0 cs o1 fs1 O R1) as (K & (Ev & _) & Mi & _).
        destruct (info_inv _ _ _ _ Ew) as (P & -> & _ & _ & W1 & W2 & W3). rewrite Ev in *.
        split; [destruct (infos [] cs); reflexivity|]. exists (os ++ [o1]). rewrite !flat_map_app. cbn [flat_map]. rewrite !app_nil_r. rewrite Mi in *. rewrite Hh in W1, W2.
        split; [apply Forall2_app; [exact F|constructor; [|constructor]]; eauto|]. rewrite W1, W2, W3, C1, C2, C3.
        destruct (infos [] cs) as [|a l] eqn:Ei; cbn [head_of app].
        * inversion F; subst. cbn [flat_map app]. auto.
        * rewrite <- !app_assoc. auto.
      + destruct (quiet_step _ _ _ _ _ _ N H2) as (Q1 & _ & Q2 & Q3 & Q4). assert (Ei : infos [] cs ++ match c with WriteInfo => [[] ++ cs] | _ => [] end = infos [] cs) by (destruct c; try contradiction; apply app_nil_r).
        rewrite Ei. split; [congruence|]. exists os. rewrite Q2, Q3, Q4. auto. }
  intros o fs rs H. exact (proj2 (G o fs rs H)).
Qed.

(** write_info_files succeeds on a 3D object whose points have all been homogenised, and on
    a 2D object never *)
Lemma info_3d o0 cs o fs : is_object o0 -> reaches o0 cs o fs -> v_dim (o_env o0) = 3 -> (forall id, In id (set_ids cs) -> homogenised id cs) ->
  exists o' fs', step WriteInfo (o, fs) = Ok (o', fs', RUnit).
Proof.
  intros O R D H. destruct (reach_inv o0 cs o fs O R) as (K & (Ev & _) & M & Hi). pose proof (write_info_ok o fs K) as W. cbn [step].
  destruct (write_info_files o fs) as [(o', fs')|e]; cbn [bind fst snd]; [eauto|]. destruct W as (_ & g & Hg & [W|W]); [rewrite Ev in W; lia|]. exfalso. apply W.
  pose proof (ok_ids o K) as Nd. assert (L : lookup (g_id g) (o_gps o) = Some g).
  { clear - Hg Nd. induction (o_gps o) as [|a l IH]; [destruct Hg|]. cbn [lookup]. cbn [map] in Nd. inversion Nd; subst. destruct Hg as [->|Hg]; [now rewrite Z.eqb_refl|].
    destruct (Z.eqb_spec (g_id a) (g_id g)) as [E|E]; [|now apply IH]. elim H1. rewrite E. now apply in_map. }
  destruct (Hi _ _ L) as (_ & [(_ & Dn)|(N & _)]); [exact Dn|]. elim N. apply H. apply first_use_in. rewrite <- M. now apply in_map.
Qed.

(** no call sets more than nvoi strain components *)
Definition short V g : Prop := forall i, nvoi V <= i -> aget (g_strain g) i = None.
Lemma wrl_short (a b : arr T) (l : list T) n : 0 <= n <= alen a -> wrl a l n = Ok b -> forall i, n <= i -> aget b i = aget a i.
Proof.
  intros Hn H i Hi. unfold wrl in H. destruct (fill_ok (lget l) n a Hn) as (c & E & _ & _ & _ & G). rewrite E in H. injection H as <-. apply G. lia.
Qed.
Lemma strain_short V id eps l l' : 0 <= nvoi V <= 6 -> Forall (fun g => alen (g_strain g) = 6) l ->
  set_strain V id eps l = Ok l' -> Forall (short V) l -> Forall (short V) l'.
Proof.
  intros Hv. revert l'. induction l as [|a l IH]; intros l' F H P; cbn [set_strain] in H.
  - apply bind_ok in H. destruct H as (n & E & H). injection H as <-. unfold new_gp in E. apply bind_ok in E. destruct E as (e & Ee & E). injection E as <-.
    constructor; [|constructor]. intros i Hi. cbn [g_strain]. rewrite (wrl_short (malloc 6) e eps (nvoi V) Hv Ee i Hi). apply aget_malloc.
  - inversion F as [|? ? Fa Fl]; subst. inversion P as [|? ? Pa Pl]; subst. destruct (Z.eqb_spec (g_id a) id) as [E|E].
    + apply bind_ok in H. destruct H as (e & Ee & H). injection H as <-. constructor; [|exact Pl]. intros i Hi. cbn. assert (Hl : 0 <= nvoi V <= alen (g_strain a)) by (rewrite Fa; lia).
      rewrite (wrl_short _ _ _ _ Hl Ee i Hi). now apply Pa.
    + apply bind_ok in H. destruct H as (l1 & E1 & H). injection H as <-. constructor; [exact Pa|]. now apply IH.
Qed.
Lemma in_lookup o g : obj_ok o -> In g (o_gps o) -> lookup (g_id g) (o_gps o) = Some g.
Proof.
  intros K Hg. pose proof (ok_ids o K) as Nd. induction (o_gps o) as [|a l IH]; [destruct Hg|]. cbn [lookup]. cbn [map] in Nd. inversion Nd; subst. destruct Hg as [->|Hg]; [now rewrite Z.eqb_refl|].
  destruct (Z.eqb_spec (g_id a) (g_id g)) as [E|E]; [|now apply IH]. elim H1. rewrite E. now apply in_map.
Qed.
Lemma keep_short o o' : obj_ok o -> obj_ok o' -> map g_id (o_gps o') = map g_id (o_gps o) -> 
  (forall id g, lookup id (o_gps o) = Some g -> exists g', lookup id (o_gps o') = Some g' /\ g_strain g' = g_strain g) ->
  Forall (short (o_env o)) (o_gps o) -> Forall (short (o_env o)) (o_gps o').
Proof.
  intros K K' M H F. rewrite Forall_forall in *. intros g' Hg'. assert (I : In (g_id g') (map g_id (o_gps o))) by (rewrite <- M; now apply in_map).
  destruct (lookup (g_id g') (o_gps o)) as [g|] eqn:L; [|apply lookup_none in L; contradiction].
  destruct (H _ _ L) as (g2 & L2 & E). rewrite (in_lookup o' g' K' Hg') in L2. injection L2 as <-. apply lookup_in in L. intros i Hi. rewrite E. now apply (F g (proj1 L)).
Qed.
Lemma reach_short o0 cs o fs : is_object o0 -> reaches o0 cs o fs -> Forall (short (o_env o)) (o_gps o).
Proof.
  intros O (fs0 & rs & R). revert o fs rs R. induction cs as [|c cs IH] using rev_ind; intros o fs rs R.
  - cbn [run] in R. injection R as <- <- <-. destruct (is_object_fresh o0 O) as (_ & ->). constructor.
  - apply run_snoc in R. destruct R as ((o1, fs1) & rs1 & r & R1 & R2 & _). specialize (IH _ _ _ R1).
    assert (Re1 : reaches o0 cs o1 fs1) by (exists fs0, rs1; exact R1). destruct (reach_inv _ _ _ _ O Re1) as (K1 & (V1 & _) & _).
    assert (Re : reaches o0 (cs ++ [c]) o fs) by exact (reach_step _ _ _ _ _ _ _ _ Re1 R2). destruct (reach_inv _ _ _ _ O Re) as (K & (V2 & _) & _).
    assert (Ve : o_env o = o_env o1) by congruence. rewrite Ve. destruct c.
    + cbn [step] in R2. destruct (_ <? _) in R2; [discriminate|]. apply bind_ok in R2. destruct R2 as (l & E & R2). injection R2 as <- _ _. cbn.
      pose proof (nvoi_range _ (ok_sane o1 K1)). apply (strain_short (o_env o1) id eps (o_gps o1) l); try assumption; [lia|].
      pose proof (ok_gps o1 K1) as G. rewrite Forall_forall in G. rewrite Forall_forall. intros g Hg. exact (go_strain _ g (proj1 (G g Hg))).
    + destruct (queries_pure o1 fs1 (GetStress id) o fs r) as (-> & _); [exists id; auto|exact R2|exact IH].
    + destruct (queries_pure o1 fs1 (GetCtan id) o fs r) as (-> & _); [exists id; auto|exact R2|exact IH].
    + destruct (queries_pure o1 fs1 (NlFlag id) o fs r) as (-> & _); [exists id; auto|exact R2|exact IH].
    + destruct (homogenize_keeps _ _ _ _ _ _ _ _ _ O Re1 R2) as (M & H). apply (keep_short o1 o K1 K M); [|exact IH]. intros id g L. destruct (H id g L) as (g' & L' & E & _). eauto.
    + destruct (update_frame _ _ _ _ O Re1) as (o2 & E & _ & _ & M & H). rewrite E in R2. injection R2 as <- _ _. apply (keep_short o1 o2 K1 K M); [|exact IH].
      intros id g L. destruct (H id g L) as (g' & L' & E' & _). eauto.
    + destruct (output_keeps _ _ _ _ (Output fuel pk tstep id) o fs r O Re1) as (-> & _); [right; eauto|exact R2|exact IH].
    + destruct (output_keeps _ _ _ _ WriteInfo o fs r O Re1) as (-> & _); [now left|exact R2|exact IH].
Qed.
Lemma info_2d o0 cs o fs id : is_object o0 -> reaches o0 cs o fs -> v_dim (o_env o0) = 2 -> In id (set_ids cs) -> step WriteInfo (o, fs) = Err Uninit.
Proof.
  intros O R D Hs. destruct (reach_inv o0 cs o fs O R) as (K & (Ev & _) & M & Hi). destruct (lookup_set o0 cs o fs id O R Hs) as (g & L). apply lookup_in in L. destruct L as (Hg & _).
  pose proof (write_info_ok o fs K) as W. cbn [step]. destruct (write_info_files o fs) as [(o', fs')|e] eqn:E; cbn [bind fst snd]; [|now destruct W as (-> & _)].
  destruct (info_inv _ _ _ _ E) as (P & _). destruct (P g Hg) as (_ & _ & P3 & _). exfalso.
  pose proof (reach_short o0 cs o fs O R) as F. rewrite Forall_forall in F. destruct (P3 3 ltac:(lia)) as (x & X). rewrite (F g Hg 3) in X; [discriminate|].
  unfold nvoi. rewrite Ev, D. cbn. lia.
Qed.
End Log.
