(** Reading back the VTU files. *)
From Coq Require Import String ZifyBool.
From Verif Require Import Base Scalar EllSpec EllInit EllModel EllAsm EllFinal Grid AssemblyModel AsmPure AsmRun MicroModel OutputModel NewtonBase FieldsBase ApiBase ApiRun ApiHist Build ApiSpec.
Open Scope string_scope.
Open Scope list_scope.
Open Scope Z_scope.

(** ** A reader: the words of the data array with a given name *)
Section Reader.
Context {T : Type}.
Notation toks := (list (tok T)).
Definition opens (name : string) (t : tok T) : bool :=
  match t with TS s => match index 0 ("Name=" ++ quote ++ name ++ quote) s with Some _ => true | None => false end | _ => false end.
Fixpoint after (name : string) (l : toks) : option toks :=
  match l with [] => None | t :: l => if opens name t then Some l else after name l end.
Definition is_close (t : tok T) : bool := match t with TS s => String.eqb s close_tag | _ => false end.
Fixpoint upto (l : toks) : option toks :=
  match l with [] => None | t :: l => if is_close t then Some [] else option_map (cons t) (upto l) end.
Definition word (t : tok T) : bool := match t with NL => false | TS s => negb (String.eqb s " ") | _ => true end.
Definition data (name : string) (l : toks) : option toks :=
  match after name l with Some r => option_map (filter word) (upto r) | None => None end.
(** the two numbers of the Piece tag *)
Fixpoint piece (l : toks) : option (Z * Z) :=
  match l with
  | TS s :: l' => if String.eqb s ("<Piece NumberOfPoints=" ++ quote) then
                   match l' with TI n :: TS m :: TI c :: _ => if String.eqb m (quote ++ " NumberOfCells=" ++ quote) then Some (n, c) else None | _ => None end
                 else piece l'
  | _ :: l' => piece l'
  | [] => None
  end.
(** the i-th word *)
Definition tnth (l : toks) (i : Z) : tok T := nth (Z.to_nat i) l NL.

Definition quiet (t : tok T) : bool := match t with TS s => existsb (String.eqb s) [" "; "0.0"; " 0.0"; "9 "; "12 "] | _ => true end.
Lemma quiet_opens name t : quiet t = true -> opens name t = false.
Proof.
  destruct t as [s| | |]; try reflexivity. cbn [quiet existsb]. intros H.
  repeat (apply Bool.orb_true_iff in H; destruct H as [H|H]; [apply String.eqb_eq in H; subst s; reflexivity|]). discriminate.
Qed.
Lemma quiet_close t : quiet t = true -> is_close t = false.
Proof.
  destruct t as [s| | |]; try reflexivity. cbn [quiet existsb]. intros H.
  repeat (apply Bool.orb_true_iff in H; destruct H as [H|H]; [apply String.eqb_eq in H; subst s; reflexivity|]). discriminate.
Qed.
Lemma after_none name h r : existsb (opens name) h = false -> after name (h ++ r) = after name r.
Proof. induction h as [|t h IH]; [reflexivity|]. cbn [existsb app after]. intros H. apply Bool.orb_false_iff in H. destruct H as (-> & H). now apply IH. Qed.
Lemma after_hit name h h' r : after name h = Some h' -> after name (h ++ r) = Some (h' ++ r).
Proof. induction h as [|t h IH]; [discriminate|]. cbn [app after]. destruct (opens name t); [intros [= ->]; reflexivity|exact IH]. Qed.
Lemma quiet_none name d : forallb quiet d = true -> existsb (opens name) d = false.
Proof. induction d as [|t d IH]; [reflexivity|]. cbn [forallb existsb]. intros H. apply andb_prop in H. destruct H as (Q & H). rewrite (quiet_opens name t Q). now apply IH. Qed.
Lemma upto_quiet d c r : forallb quiet d = true -> is_close c = true -> upto (d ++ c :: r) = Some d.
Proof.
  intros H Hc. induction d as [|t d IH]; cbn [app upto]; [now rewrite Hc|]. cbn [forallb] in H. apply andb_prop in H. destruct H as (Q & H).
  rewrite (quiet_close t Q), IH by exact H. reflexivity.
Qed.
Definition flat (l : list (toks * toks)) : toks := flat_map (fun p => fst p ++ snd p) l.
Lemma data_sec name pre h h' d c rest : Forall (fun p => existsb (opens name) (fst p) = false /\ forallb quiet (snd p) = true) pre ->
  after name h = Some h' -> forallb quiet h' = true -> forallb quiet d = true -> is_close c = true ->
  data name (flat pre ++ h ++ d ++ c :: rest) = Some (filter word (h' ++ d)).
Proof.
  intros Hp Hh Qh Qd Hc. unfold data.
  assert (E : after name (flat pre ++ h ++ d ++ c :: rest) = after name (h ++ d ++ c :: rest)).
  { unfold flat. induction Hp as [|(a, b) l (Ha & Hb) Hl IH]; [reflexivity|]. cbn [flat_map fst snd]. rewrite <- !app_assoc, after_none by exact Ha. rewrite after_none by now apply quiet_none. exact IH. }
  rewrite E, (after_hit _ _ _ _ Hh), app_assoc, upto_quiet; [reflexivity| |exact Hc]. rewrite forallb_app, Qh. exact Qd.
Qed.

(** ** Counting words *)
Lemma filter_flat {A} (f : A -> toks) l : filter word (flat_map f l) = flat_map (fun x => filter word (f x)) l.
Proof. induction l as [|a l IH]; [reflexivity|]. cbn [flat_map]. now rewrite filter_app, IH. Qed.
Lemma filter_concat (l : list toks) : filter word (List.concat l) = List.concat (map (filter word) l).
Proof. induction l as [|a l IH]; [reflexivity|]. cbn [List.concat map]. now rewrite filter_app, IH. Qed.
Lemma flat_len {A} (f : A -> toks) m l : (forall x, In x l -> length (f x) = m) -> length (flat_map f l) = (length l * m)%nat.
Proof. induction l as [|a l IH]; intros H; [reflexivity|]. cbn [flat_map length]. rewrite app_length, (H a) by now left. rewrite IH by (intros; apply H; now right). lia. Qed.
Lemma flat_nth {A} (f : A -> toks) (m : Z) lo hi : forall (g : Z -> A), 0 <= m -> lo <= hi -> (forall i, lo <= i < hi -> Z.of_nat (length (f (g i))) = m) -> forall i r, lo <= i < hi -> 0 <= r < m ->
  tnth (flat_map f (map g (zrange lo hi))) ((i - lo) * m + r) = tnth (f (g i)) r.
Proof.
  intros g Hm Hlo. remember (Z.to_nat (hi - lo)) as n eqn:En. revert lo Hlo En. induction n as [|n IH]; intros lo Hlo En H i r Hi Hr; [lia|].
  rewrite zrange_cons by lia. cbn [map flat_map]. unfold tnth in *. destruct (Z.eq_dec i lo) as [->|N].
  - replace ((lo - lo) * m + r) with r by ring. rewrite app_nth1; [reflexivity|]. specialize (H lo ltac:(lia)). lia.
  - pose proof (H lo ltac:(lia)) as L. rewrite app_nth2 by nia.
    replace (Z.to_nat ((i - lo) * m + r) - length (f (g lo)))%nat with (Z.to_nat ((i - (lo + 1)) * m + r)) by nia.
    apply IH; try lia. intros k Hk. apply H. lia.
Qed.
End Reader.

Section Vtu.
Context {T : Type} `{OT : Ops T}.
Implicit Types (V : env T) (o : obj T).
Notation toks := (list (tok T)).

(** array [name] of the file has n words w with the property P *)
Definition has (f : toks) (name : string) (n : Z) (P : (Z -> tok T) -> Prop) : Prop :=
  exists l, data name f = Some l /\ Z.of_nat (length l) = n /\ P (tnth l).

Lemma emit_inv {A} (f : A -> res toks) l ts : emit f l = Ok ts -> exists g, (forall x, In x l -> f x = Ok (g x)) /\ ts = flat_map g l.
Proof.
  intros H. exists (fun x => match f x with Ok t => t | Err _ => [] end). unfold emit in H. apply bind_ok in H. destruct H as (r & H & [= <-]).
  revert r H. induction l as [|a l IH]; intros r H; cbn [mapM] in H.
  - injection H as <-. split; [intros x []|reflexivity].
  - apply bind_ok in H. destruct H as (y & E & H). apply bind_ok in H. destruct H as (ys & E2 & [= <-]). destruct (IH ys E2) as (I1 & I2). split.
    + intros x [->|Hx]; [now rewrite E|now apply I1].
    + cbn [flat_map List.concat]. rewrite E. f_equal. exact I2.
Qed.
Lemma rd_some (a : arr T) i x : rd a i = Ok x -> aget a i = Some x.
Proof. unfold rd, aget. destruct (inb a i); [|discriminate]. destruct FMapPositive.PositiveMap.find; [intros [= ->]; reflexivity|discriminate]. Qed.

(** the sections of a file *)
Definition secs o (su sb se ss st sq sh : toks) : list (toks * toks) :=
  let V := o_env o in
  [ ([TS ("<?xml version=" ++ quote ++ "1.0" ++ quote ++ "?>"); NL;
       TS ("<VTKFile type=" ++ quote ++ "UnstructuredGrid" ++ quote ++ " version=" ++ quote ++ "0.1" ++ quote
           ++ " byte_order=" ++ quote ++ "LittleEndian" ++ quote ++ ">"); NL; TS "<UnstructuredGrid>"; NL;
       TS ("<Piece NumberOfPoints=" ++ quote); TI (nn V); TS (quote ++ " NumberOfCells=" ++ quote); TI (vcells V);
       TS (quote ++ ">"); NL; TS "<Points>"; NL; TS (tag "Float32" "Position" "3"); NL], vtu_points V);
    ([TS close_tag; NL; TS "</Points>"; NL; TS "<Cells>"; NL; TS (tag "Int32" "connectivity" "1"); NL], vtu_conn V);
    ([TS close_tag; NL; TS (tag "Int32" "offsets" "1"); NL], vtu_offsets V);
    ([TS close_tag; NL;
       TS ("<DataArray type=" ++ quote ++ "UInt8" ++ quote ++ "  Name=" ++ quote ++ "types" ++ quote
           ++ " NumberOfComponents=" ++ quote ++ "1" ++ quote ++ " format=" ++ quote ++ "ascii" ++ quote ++ ">"); NL], vtu_types V);
    ([TS close_tag; NL; TS "</Cells>"; NL; TS ("<PointData Vectors=" ++ quote ++ "displ,b" ++ quote ++ " >>"); NL; TS (tag_to " >" "Float64" "displ" "3"); NL], su);
    ([TS close_tag; NL; TS (tag_to " >" "Float64" "b" "3"); NL], sb);
    ([TS close_tag; NL; TS "</PointData>"; NL; TS "<CellData>"; NL; TS (tag "Float64" "strain" (nvoi_str V)); NL], se);
    ([TS close_tag; TS (tag "Float64" "stress" (nvoi_str V)); NL], ss);
    ([TS close_tag; TS (tag "Int32" "elem_type" "1"); NL], st);
    ([TS close_tag; NL; TS (tag "Float64" "plasticity" "1"); NL], sq);
    ([TS close_tag; NL; TS (tag "Float64" "hardening" "1"); NL], sh) ].
Definition tail : toks :=
  [TS close_tag; NL; TS "</CellData>"; NL; TS "</Piece>"; NL; TS "</UnstructuredGrid>"; NL; TS "</VTKFile>"; NL].
Lemma vtu_secs o f : write_vtu o = Ok f -> let V := o_env o in let w := o_work o in
  exists su sb se ss st sq sh, vtu_nodal V (w_u w) = Ok su /\ vtu_nodal V (w_b w) = Ok sb /\ vtu_cell V (o_estrain o) = Ok se /\ vtu_cell V (o_estress o) = Ok ss /\
    vtu_etype V = Ok st /\ vtu_plast V (w_vold w) = Ok sq /\ vtu_hard V (w_vold w) = Ok sh /\ f = flat (secs o su sb se ss st sq sh) ++ tail.
Proof.
  intros H V w. unfold write_vtu in H. do 7 (apply bind_ok in H; let x := fresh "s" in let E := fresh "E" in destruct H as (x & E & H)).
  injection H as <-. exists s, s0, s1, s2, s3, s4, s5. do 7 (split; [assumption|]). unfold secs, flat, tail. cbn [flat_map fst snd]. fold V. rewrite app_nil_r, <- !app_assoc. reflexivity.
Qed.

Lemma quiet_flat {A} (f : A -> toks) l : (forall x, In x l -> forallb quiet (f x) = true) -> forallb quiet (flat_map f l) = true.
Proof. induction l as [|a l IH]; intros H; [reflexivity|]. cbn [flat_map]. rewrite forallb_app, (H a) by now left. apply IH. intros; apply H; now right. Qed.
Lemma offsets_eq V : vtu_offsets V = flat_map (fun e => [TI (npe V * (e + 1)); sp]) (zrange 0 (vcells V)) ++ [NL].
Proof.
  unfold vtu_offsets. f_equal. assert (X : forall n, (0 <= n) -> fold_left (fun (st : toks * Z) (_ : Z) => (fst st ++ [TI (snd st); sp], snd st + npe V)) (zrange 0 n) ([], npe V) =
    (flat_map (fun e => [TI (npe V * (e + 1)); sp]) (zrange 0 n), npe V * (n + 1))).
  { intros n Hn. pattern n. apply natlike_ind; [|intros m Hm IH|exact Hn].
    - change (zrange 0 0) with (@nil Z). cbn [fold_left flat_map]. f_equal. ring.
    - rewrite <- Z.add_1_r, zrange_snoc by lia. rewrite fold_left_app, flat_map_app, IH. cbn [fold_left flat_map fst snd]. rewrite app_nil_r. f_equal. ring. }
  destruct (Z_lt_le_dec (vcells V) 0) as [N|N]; [rewrite zrange_empty by lia; reflexivity|]. now rewrite X.
Qed.
Lemma quiet_pts V : forallb quiet (vtu_points V) = true.
Proof. unfold vtu_points. destruct (v_dim V =? 2); [|destruct (v_dim V =? 3); [|reflexivity]]; repeat (apply quiet_flat; intros); reflexivity. Qed.
Lemma quiet_conn V : forallb quiet (vtu_conn V) = true.
Proof. unfold vtu_conn. destruct (v_dim V =? 2); [|destruct (v_dim V =? 3); [|reflexivity]]; repeat (apply quiet_flat; intros); reflexivity. Qed.
Lemma quiet_offs V : forallb quiet (vtu_offsets V) = true.
Proof. rewrite offsets_eq, forallb_app. rewrite quiet_flat; [reflexivity|]. intros; reflexivity. Qed.
Lemma quiet_typs V : forallb quiet (vtu_types V) = true.
Proof. unfold vtu_types. rewrite forallb_app. rewrite quiet_flat; [reflexivity|]. intros x _. destruct (v_dim V =? 2); [reflexivity|destruct (v_dim V =? 3); reflexivity]. Qed.
Ltac peel H := repeat match type of H with bind _ _ = Ok _ => apply bind_ok in H; let x := fresh "x" in let E := fresh "E" in destruct H as (x & E & H); try apply rd_some in E end.
Lemma quiet_nodal V a s : vtu_nodal V a = Ok s -> forallb quiet s = true.
Proof.
  intros H. unfold vtu_nodal in H. apply emit_inv in H. destruct H as (g & Hg & ->). apply quiet_flat. intros x Hx. apply Hg in Hx.
  destruct (v_dim V =? 2); [|destruct (v_dim V =? 3)]; peel Hx; injection Hx as <-; reflexivity.
Qed.
Lemma quiet_cell V a s : vtu_cell V a = Ok s -> forallb quiet s = true.
Proof.
  intros H. unfold vtu_cell in H. apply emit_inv in H. destruct H as (g & Hg & ->). apply quiet_flat. intros x Hx. apply Hg in Hx.
  apply bind_ok in Hx. destruct Hx as (t & E & [= <-]). apply emit_inv in E. destruct E as (h & Hh & ->). rewrite forallb_app, quiet_flat; [reflexivity|].
  intros y Hy. apply Hh in Hy. peel Hy. injection Hy as <-. reflexivity.
Qed.
Lemma quiet_nums {A} (f : A -> res toks) l s : (' t <- emit f l ;; Ok (t ++ [NL])) = Ok s -> (forall x t, f x = Ok t -> forallb quiet t = true) -> forallb quiet s = true.
Proof.
  intros H Hq. apply bind_ok in H. destruct H as (t & E & [= <-]). apply emit_inv in E. destruct E as (h & Hh & ->). rewrite forallb_app, quiet_flat; [reflexivity|].
  intros y Hy. apply Hh in Hy. now apply Hq in Hy.
Qed.

(** every array is found, with the words of its section *)
Theorem arrays o f : write_vtu o = Ok f -> v_dim (o_env o) = 2 \/ v_dim (o_env o) = 3 -> let V := o_env o in let w := o_work o in
  piece f = Some (nn V, vcells V) /\
  data "Position" f = Some (filter word (vtu_points V)) /\ data "connectivity" f = Some (filter word (vtu_conn V)) /\
  data "offsets" f = Some (filter word (vtu_offsets V)) /\ data "types" f = Some (filter word (vtu_types V)) /\
  exists su sb se ss st sq sh, vtu_nodal V (w_u w) = Ok su /\ vtu_nodal V (w_b w) = Ok sb /\ vtu_cell V (o_estrain o) = Ok se /\ vtu_cell V (o_estress o) = Ok ss /\
    vtu_etype V = Ok st /\ vtu_plast V (w_vold w) = Ok sq /\ vtu_hard V (w_vold w) = Ok sh /\
    data "displ" f = Some (filter word su) /\ data "b" f = Some (filter word sb) /\ data "strain" f = Some (filter word se) /\ data "stress" f = Some (filter word ss) /\
    data "elem_type" f = Some (filter word st) /\ data "plasticity" f = Some (filter word sq) /\ data "hardening" f = Some (filter word sh).
Proof.
  intros H D V w. destruct (vtu_secs o f H) as (su & sb & se & ss & st & sq & sh & E1 & E2 & E3 & E4 & E5 & E6 & E7 & ->). fold V w in E1, E2, E3, E4, E5, E6, E7.
  pose proof (quiet_nodal _ _ _ E1) as Q1. pose proof (quiet_nodal _ _ _ E2) as Q2. pose proof (quiet_cell _ _ _ E3) as Q3. pose proof (quiet_cell _ _ _ E4) as Q4.
  assert (Q5 : forallb quiet st = true) by (apply (quiet_nums _ _ _ E5); intros x t Hx; peel Hx; injection Hx as <-; reflexivity).
  assert (Q6 : forallb quiet sq = true) by (apply (quiet_nums _ _ _ E6); intros x t Hx; apply bind_ok in Hx; destruct Hx as (y & _ & [= <-]); reflexivity).
  assert (Q7 : forallb quiet sh = true) by (apply (quiet_nums _ _ _ E7); intros x t Hx; apply bind_ok in Hx; destruct Hx as (y & _ & [= <-]); reflexivity).
  pose proof (quiet_pts V) as P1. pose proof (quiet_conn V) as P2. pose proof (quiet_offs V) as P3. pose proof (quiet_typs V) as P4.
  assert (Nv : nvoi_str V = "3" \/ nvoi_str V = "6") by (unfold nvoi_str; destruct (v_dim V =? 2); auto).
  assert (Skip : forall n name, Forall (fun p => existsb (opens name) (fst p) = false) (firstn n (secs o su sb se ss st sq sh)) ->
     Forall (fun p => existsb (opens name) (fst p) = false /\ forallb quiet (snd p) = true) (firstn n (secs o su sb se ss st sq sh))).
  { intros n name F. assert (A : Forall (fun p : toks * toks => forallb quiet (snd p) = true) (secs o su sb se ss st sq sh)) by (unfold secs; repeat constructor; assumption).
    assert (B : Forall (fun p : toks * toks => forallb quiet (snd p) = true) (firstn n (secs o su sb se ss st sq sh))).
    { apply Forall_forall. intros x Hx. rewrite Forall_forall in A. apply A. rewrite <- (firstn_skipn n). apply in_or_app. now left. }
    rewrite Forall_forall in *. intros x Hx. split; [now apply F|now apply B]. }
  assert (Find : forall n name h d h' r, nth_error (secs o su sb se ss st sq sh) n = Some (h, d) ->
     flat (skipn (Datatypes.S n) (secs o su sb se ss st sq sh)) ++ tail = TS close_tag :: r ->
     Forall (fun p => existsb (opens name) (fst p) = false) (firstn n (secs o su sb se ss st sq sh)) -> after name h = Some h' -> forallb quiet h' = true -> filter word h' = [] ->
     data name (flat (secs o su sb se ss st sq sh) ++ tail) = Some (filter word d)).
  { intros n name h d h' r En Er Fs Ha Qh Wh. pose proof (Skip n name Fs) as F2.
    assert (Qd : forallb quiet d = true). { assert (A : Forall (fun p : toks * toks => forallb quiet (snd p) = true) (secs o su sb se ss st sq sh)) by (unfold secs; repeat constructor; assumption).
      rewrite Forall_forall in A. exact (A (h, d) (nth_error_In _ _ En)). }
    pose proof (data_sec name (firstn n (secs o su sb se ss st sq sh)) h h' d (TS close_tag) r F2 Ha Qh Qd eq_refl) as X.
    rewrite filter_app, Wh in X. cbn [app] in X. rewrite <- X. f_equal. rewrite <- Er.
    rewrite <- (firstn_skipn n (secs o su sb se ss st sq sh)) at 1. unfold flat. rewrite flat_map_app, <- app_assoc. f_equal.
    assert (S1 : skipn n (secs o su sb se ss st sq sh) = (h, d) :: skipn (Datatypes.S n) (secs o su sb se ss st sq sh)).
    { clear - En. revert n En. generalize (secs o su sb se ss st sq sh). induction l as [|a l IH]; intros [|n] E; cbn in E; try discriminate; [injection E as ->; reflexivity|]. cbn [skipn]. now apply IH. }
    rewrite S1. cbn [flat_map fst snd]. now rewrite <- !app_assoc. }
  split; [reflexivity|].
  assert (Hit : forall n name h d h' r, nth_error (secs o su sb se ss st sq sh) n = Some (h, d) ->
     flat (skipn (Datatypes.S n) (secs o su sb se ss st sq sh)) ++ tail = TS close_tag :: r ->
     forallb (fun p => negb (existsb (opens name) (fst p))) (firstn n (secs o su sb se ss st sq sh)) = true -> after name h = Some h' -> h' = [NL] ->
     data name (flat (secs o su sb se ss st sq sh) ++ tail) = Some (filter word d)).
  { intros n name h d h' r En Er Fs Ha ->. apply (Find n name h d [NL] r En Er); try assumption; try reflexivity.
    rewrite forallb_forall in Fs. apply Forall_forall. intros x Hx. apply Fs in Hx. now apply Bool.negb_true_iff in Hx. }
  Ltac hit Hit n := eapply (Hit n); [reflexivity|reflexivity| | |reflexivity]; [vm_compute; reflexivity|vm_compute; reflexivity].
  destruct Nv as [Nv|Nv]; unfold secs in Hit; fold V in Hit; rewrite Nv in Hit; unfold secs; fold V; rewrite Nv.
  - split; [hit Hit 0%nat|]. split; [hit Hit 1%nat|]. split; [hit Hit 2%nat|]. split; [hit Hit 3%nat|]. exists su, sb, se, ss, st, sq, sh.
    do 7 (split; [assumption|]). split; [hit Hit 4%nat|]. split; [hit Hit 5%nat|]. split; [hit Hit 6%nat|]. split; [hit Hit 7%nat|]. split; [hit Hit 8%nat|]. split; [hit Hit 9%nat|]. hit Hit 10%nat.
  - split; [hit Hit 0%nat|]. split; [hit Hit 1%nat|]. split; [hit Hit 2%nat|]. split; [hit Hit 3%nat|]. exists su, sb, se, ss, st, sq, sh.
    do 7 (split; [assumption|]). split; [hit Hit 4%nat|]. split; [hit Hit 5%nat|]. split; [hit Hit 6%nat|]. split; [hit Hit 7%nat|]. split; [hit Hit 8%nat|]. split; [hit Hit 9%nat|]. hit Hit 10%nat.
Qed.
End Vtu.
