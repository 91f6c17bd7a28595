(** The syntax trees of the bodies of the loops of get_macro_stress and get_macro_ctan, src/homogenize.cpp, run over a list of
    Gauss points, against the model. *)
From Coq Require Import String FMapPositive.
From Verif Require Import Base Scalar MicroModel ApiRun Clite CliteRules EllAst AsmAst HomAst GpAst GetAst Sym SymStep Grid EllModel AssemblyModel
  EllLit EllLit2 EllLit6 EllLit7 SymFold AsmCalls AsmPure AsmLit AsmLit2 AsmLit9 AsmLit13 AsmLit14 AsmLit15 AsmLit16 AsmLit18 AsmLit19 AsmLit22 AsmLit28 HomLit HomLit2 HomLit3 HomLit4 EllSpec NewtonBase ApiBase FixInst GpLit GpLit2.
Local Open Scope string_scope.
Local Open Scope Z_scope.

Section Get.
Context {T : Type} `{OT : Ops T}.
Notation state := (@state T).
Notation obj := (@Clite.obj T).
Notation val := (@val T).

(** a range-for over the entries at the addresses given: the body, a function of the object, the entry and further arguments, is run
    on one after the other until it breaks *)
Inductive walk (PR : string -> option fdef) (f : string) (this : Z) (vs : list val) : list Z -> (Z -> option obj) -> Z -> (Z -> option obj) -> Z -> Prop :=
| walk_end h k : walk PR f this vs [] h k h k
| walk_break a l h k st : calls PR f (VP this 0 :: VP a 0 :: vs) h k (Ok (st, Brk)) -> walk PR f this vs (a :: l) h k (mem st) (nxt st)
| walk_next a l h k st h' k' : calls PR f (VP this 0 :: VP a 0 :: vs) h k (Ok (st, Nrm)) -> walk PR f this vs l (mem st) (nxt st) h' k' ->
    walk PR f this vs (a :: l) h k h' k'.

(** an entry in memory, with the array of the field F outside the caller's buffer *)
Definition gp_in (F : string) (sel : gp T -> arr T) (oa : Z) (h : Z -> option obj) (g : gp T) (a : Z) : Prop :=
  exists gs b, a <> oa /\ b <> oa /\ h a = Some (OS gs) /\ fget gs "id" = Some (Some (VI (g_id g))) /\ fget gs F = Some (ptr b) /\ h b = Some (OD (sel g)).

Definition get_body (F : string) (cE : exp) : stmt :=
  (SIf (EBin Eq (EFld (EV "gp") "id") (EV "gp_id")) (block [(SFor "i" (EI 0) (EBin Lt (EV "i") cE) (SStore (EV F) (EV "i") (EIdx (EFld (EV "gp") F) (EV "i"))));
 SBreak]) SSkip).
Definition get_env (P : place) (a id oa : Z) (F : string) : list (string * val) := [("this", VP (a_this P) 0); ("gp", VP a 0); ("gp_id", VI id); (F, VP oa 0)].

Section One.
Variables (V : env T) (P : place) (F f : string) (cE : exp) (n id oa k : Z) (sel : gp T -> arr T) (fs : list (string * option val)).
Hypothesis Hn : 0 <= n.
Hypothesis HF : ~ In F ["this"; "gp"; "gp_id"; "i"].
Hypothesis HP : get_prog f = Some (mkFun ["this"; "gp"; "gp_id"; F] (get_body F cE)).
Hypothesis HB : forall a, exists e0, bindp ["this"; "gp"; "gp_id"; F] [VP (a_this P) 0; VP a 0; VI id; VP oa 0] (fun _ => None) = Ok e0 /\
  forall h, kenv (get_env P a id oa F) (mkSt e0 h k).
Hypothesis HE : forall (s : state) a, kenv (get_env P a id oa F) s -> mem s (a_this P) = Some (OS fs) -> eval s cE = Ok (VI n).

Lemma get_miss g a (h : Z -> option obj) : gp_in F sel oa h g a -> g_id g <> id ->
  exists st, calls get_prog f [VP (a_this P) 0; VP a 0; VI id; VP oa 0] h k (Ok (st, Nrm)) /\ mem st = h /\ nxt st = k.
Proof.
  intros (gs & b & _ & _ & MG & GI & _ & _) NI. destruct (HB a) as (e0 & EB & KE). exists (mkSt e0 h k). split; [|auto].
  unfold calls. rewrite HP. cbn [f_params f_body]. rewrite EB.
  apply (runs_if get_prog _ _ _ _ (VI 0) false); [|reflexivity|apply runs_skip].
  apply (eval_bin Eq _ _ _ (VI (g_id g)) (VI id)).
  - cbn [eval]. rewrite (KE h "gp" (VP a 0)) by (cbn; tauto). cbn [of_option bind]. unfold load_fld. cbn [mem]. now rewrite MG, GI.
  - cbn [eval]. now rewrite (KE h "gp_id" (VI id)) by (cbn; tauto).
  - cbn. destruct (Z.eqb_spec (g_id g) id); [contradiction|reflexivity].
Qed.

Lemma get_hit g a (h : Z -> option obj) out s : gp_in F sel oa h g a -> g_id g = id ->
  h (a_this P) = Some (OS fs) -> a_this P <> oa -> h oa = Some (OD out) -> n <= alen out -> rdl (sel g) n = Ok s ->
  exists st out', calls get_prog f [VP (a_this P) 0; VP a 0; VI id; VP oa 0] h k (Ok (st, Brk)) /\ mem st oa = Some (OD out') /\
    alen out' = alen out /\ (forall i, 0 <= i < n -> aget out' i = Some (lget s i)) /\ (forall i, ~ 0 <= i < n -> aget out' i = aget out i) /\
    (forall d, d <> oa -> mem st d = h d) /\ nxt st = k.
Proof.
  intros (gs & b & NA & NB & MG & GI & GF & HS) EI0 MT NT HO LO ES. destruct (HB a) as (e0 & EB & KE). set (s0 := mkSt e0 h k).
  pose proof (mapM_lget _ _ _ ES) as EV0. cbv beta in EV0.
  destruct (fill get_prog "i" (get_env P a id oa F) oa h k n (EBin Lt (EV "i") cE) (SStore (EV F) (EV "i") (EIdx (EFld (EV "gp") F) (EV "i")))
    (fun i => i) (lget s) out s0) as (s' & out' & RS & (K & M & O & Nx) & L & G & FR).
  - exact Hn.
  - split; [exact (KE h)|splits; auto].
  - cbn [map fst get_env In]. intros Q. repeat (destruct Q as [Q|Q]; [discriminate Q|]). destruct Q as [Q|[]]. apply HF. cbn. auto.
  - intros; lia.
  - intros; assumption.
  - intros a0 t i (Kt & _ & Ot & _) X. exists (ofb (i <? n)). split; [|unfold ofb; now destruct (i <? n)].
    apply (eval_bin Lt _ _ _ (VI i) (VI n)); [cbn [eval]; now rewrite X| |reflexivity].
    apply (HE t a Kt). rewrite Ot by congruence. exact MT.
  - intros i a0 a1 t Hi (Kt & Mt & Ot & _) X W. specialize (EV0 i Hi). apply rd_ok in EV0.
    apply (runs_store get_prog _ _ _ _ oa 0 i (VD (lget s i)) a0 (lget s i) a1); [cbn [eval]; now rewrite (Kt F (VP oa 0)) by (cbn; tauto)|cbn [eval]; now rewrite X| |reflexivity|exact Mt|exact W].
    apply (ev_idx _ _ b i _ (sel g) (lget s i)); [|cbn [eval]; now rewrite X|rewrite Ot by congruence; exact HS|exact EV0].
    cbn [eval]. rewrite (Kt "gp" (VP a 0)) by (cbn; tauto). cbn [of_option bind]. unfold load_fld. rewrite Ot by congruence. now rewrite MG, GF.
  - exists s', out'. split.
    { unfold calls. rewrite HP. cbn [f_params f_body]. rewrite EB.
      apply (runs_if get_prog _ _ _ _ (VI 1) true); [|reflexivity|].
      - apply (eval_bin Eq _ _ _ (VI (g_id g)) (VI id)).
        + cbn [eval]. rewrite (KE h "gp" (VP a 0)) by (cbn; tauto). cbn [of_option bind]. unfold load_fld. cbn [mem]. now rewrite MG, GI.
        + cbn [eval]. now rewrite (KE h "gp_id" (VI id)) by (cbn; tauto).
        + cbn. destruct (Z.eqb_spec (g_id g) id); [reflexivity|contradiction].
      - cbn [block]. eapply runs_seq; [exact RS|apply runs_break]. }
    split; [exact M|]. split; [exact L|]. split; [exact G|]. split; [|split; [exact O|exact Nx]]. intros i Hi. apply FR. intros j Hj ->. contradiction.
Qed.

Lemma get_walk l : forall al (h : Z -> option obj) out, Forall2 (gp_in F sel oa h) l al -> h (a_this P) = Some (OS fs) -> a_this P <> oa -> h oa = Some (OD out) -> n <= alen out ->
  match lookup id l with
  | None => exists h', walk get_prog f (a_this P) [VI id; VP oa 0] al h k h' k /\ h' = h
  | Some g => forall s, rdl (sel g) n = Ok s ->
      exists h' out', walk get_prog f (a_this P) [VI id; VP oa 0] al h k h' k /\ h' oa = Some (OD out') /\ alen out' = alen out /\
        (forall i, 0 <= i < n -> aget out' i = Some (lget s i)) /\ (forall i, ~ 0 <= i < n -> aget out' i = aget out i) /\ (forall d, d <> oa -> h' d = h d)
  end.
Proof.
  induction l as [|g l IH]; intros al h out FA MT NT HO LO; inversion FA as [|g0 a l0 al' GA FA']; subst; cbn [lookup].
  - exists h. split; [apply walk_end|reflexivity].
  - destruct (Z.eqb_spec (g_id g) id) as [Q|Q].
    + intros s ES. destruct (get_hit g a h out s GA Q MT NT HO LO ES) as (st & out' & C & M & L & G & G' & O & N).
      exists (mem st), out'. split; [rewrite <- N at 2; now apply walk_break|]. auto.
    + destruct (get_miss g a h GA Q) as (st & C & M & N). specialize (IH al' h out FA' MT NT HO LO).
      assert (W : forall h', walk get_prog f (a_this P) [VI id; VP oa 0] al' h k h' k -> walk get_prog f (a_this P) [VI id; VP oa 0] (a :: al') h k h' k).
      { intros h' W. eapply walk_next; [exact C|]. rewrite M, N. exact W. }
      destruct (lookup id l) as [g1|].
      * intros s ES. destruct (IH s ES) as (h' & out' & W' & R). exists h', out'. split; [now apply W|exact R].
      * destruct IH as (h' & W' & R). exists h'. split; [now apply W|exact R].
Qed.
End One.

Lemma get_binds (P : place) F id oa k a : ~ In F ["this"; "gp"; "gp_id"; "i"] ->
  exists e0, bindp ["this"; "gp"; "gp_id"; F] [VP (a_this P) 0; VP a 0; VI id; VP oa 0] (fun _ => None) = Ok e0 /\ forall h, kenv (get_env P a id oa F) (mkSt e0 h k).
Proof.
  intros HF. eexists. split; [reflexivity|]. intros h x v I. cbn [get_env In] in I.
  assert (N : F <> "this" /\ F <> "gp" /\ F <> "gp_id") by (cbn [In] in HF; intuition congruence). destruct N as (N1 & N2 & N3).
  assert (Q1 : String.eqb "this" F = false) by (apply String.eqb_neq; congruence). assert (Q2 : String.eqb "gp" F = false) by (apply String.eqb_neq; congruence).
  assert (Q3 : String.eqb "gp_id" F = false) by (apply String.eqb_neq; congruence). pose proof (String.eqb_refl F) as Q4.
  destruct I as [[= <- <-]|[[= <- <-]|[[= <- <-]|[[= <- <-]|[]]]]]; cbn [Clite.env]; [rewrite Q1|rewrite Q2|rewrite Q3|rewrite Q4]; reflexivity.
Qed.

(** get_macro_stress, src/homogenize.cpp:112-120 *)
Theorem get_stress_text (V : env T) P id oa k (h : Z -> option obj) fs out l al r : v_dim V = 2 \/ v_dim V = 3 ->
  h (a_this P) = Some (OS fs) -> this_in fs V P -> a_this P <> oa -> h oa = Some (OD out) -> nvoi V <= alen out ->
  Forall2 (gp_in "macro_stress" g_stress oa h) l al -> get_macro_stress V id l = Ok r ->
  exists h', walk get_prog "get_stress_gp" (a_this P) [VI id; VP oa 0] al h k h' k /\
  match r with
  | None => h' = h
  | Some s => exists out', h' oa = Some (OD out') /\ alen out' = alen out /\ (forall i, 0 <= i < nvoi V -> aget out' i = Some (lget s i)) /\
      (forall i, ~ 0 <= i < nvoi V -> aget out' i = aget out i) /\ (forall d, d <> oa -> h' d = h d)
  end.
Proof.
  intros DD MT TI NT HO LO FA E. pose proof (nvoi_le V DD) as NV. assert (NF : ~ In "macro_stress" ["this"; "gp"; "gp_id"; "i"]) by (cbn; intuition discriminate).
  assert (HE : forall (s : state) a, kenv (get_env P a id oa "macro_stress") s -> mem s (a_this P) = Some (OS fs) -> eval s (EFld (EV "this") "nvoi") = Ok (VI (nvoi V))).
  { intros s a K M. cbn [eval]. rewrite (K "this" (VP (a_this P) 0)) by (cbn; tauto). cbn [of_option bind]. unfold load_fld. now rewrite M, (nvoi_in V P fs TI). }
  pose proof (get_walk P "macro_stress" "get_stress_gp" _ (nvoi V) id oa k g_stress fs ltac:(lia) NF eq_refl (fun a => get_binds P "macro_stress" id oa k a NF) HE l al h out FA MT NT HO LO) as W.
  unfold get_macro_stress in E. destruct (lookup id l) as [g|].
  - apply bind_ok in E. destruct E as (s & ES & Q). injection Q as <-. destruct (W s ES) as (h' & out' & W1 & R). exists h'. split; [exact W1|]. exists out'. exact R.
  - injection E as <-. exact W.
Qed.
(** get_macro_ctan, src/homogenize.cpp:122-130 *)
Theorem get_ctan_text (V : env T) P id oa k (h : Z -> option obj) fs out l al r : v_dim V = 2 \/ v_dim V = 3 ->
  h (a_this P) = Some (OS fs) -> this_in fs V P -> a_this P <> oa -> h oa = Some (OD out) -> nvoi V * nvoi V <= alen out ->
  Forall2 (gp_in "macro_ctan" g_ctan oa h) l al -> get_macro_ctan V id l = Ok r ->
  exists h', walk get_prog "get_ctan_gp" (a_this P) [VI id; VP oa 0] al h k h' k /\
  match r with
  | None => h' = h
  | Some s => exists out', h' oa = Some (OD out') /\ alen out' = alen out /\ (forall i, 0 <= i < nvoi V * nvoi V -> aget out' i = Some (lget s i)) /\
      (forall i, ~ 0 <= i < nvoi V * nvoi V -> aget out' i = aget out i) /\ (forall d, d <> oa -> h' d = h d)
  end.
Proof.
  intros DD MT TI NT HO LO FA E. pose proof (nvoi_le V DD) as NV. assert (NF : ~ In "macro_ctan" ["this"; "gp"; "gp_id"; "i"]) by (cbn; intuition discriminate).
  assert (HE : forall (s : state) a, kenv (get_env P a id oa "macro_ctan") s -> mem s (a_this P) = Some (OS fs) ->
    eval s (EBin Mul (EFld (EV "this") "nvoi") (EFld (EV "this") "nvoi")) = Ok (VI (nvoi V * nvoi V))).
  { intros s a K M. assert (X : eval s (EFld (EV "this") "nvoi") = Ok (VI (nvoi V))).
    { cbn [eval]. rewrite (K "this" (VP (a_this P) 0)) by (cbn; tauto). cbn [of_option bind]. unfold load_fld. now rewrite M, (nvoi_in V P fs TI). }
    apply (eval_bin Mul _ _ _ (VI (nvoi V)) (VI (nvoi V))); [exact X|exact X|reflexivity]. }
  pose proof (get_walk P "macro_ctan" "get_ctan_gp" _ (nvoi V * nvoi V) id oa k g_ctan fs ltac:(nia) NF eq_refl (fun a => get_binds P "macro_ctan" id oa k a NF) HE l al h out FA MT NT HO LO) as W.
  unfold get_macro_ctan in E. destruct (lookup id l) as [g|].
  - apply bind_ok in E. destruct E as (s & ES & Q). injection Q as <-. destruct (W s ES) as (h' & out' & W1 & R). exists h'. split; [exact W1|]. exists out'. exact R.
  - injection E as <-. exact W.
Qed.
End Get.

(** two points of one cell of three dimensions and a buffer *)
Definition get_pt (id : Z) (s c : arr fx) : gp fx := mkGp id (malloc 7) None None (malloc 6) s c (malloc 7) inv_min.
Definition get_flds (id b1 b2 : Z) : list (string * option (@val fx)) := [("id", Some (VI id)); ("macro_stress", ptr b1); ("macro_ctan", ptr b2)].
Definition get_mem (s c : arr fx) (a : Z) : option (@Clite.obj fx) :=
  if a =? 0 then Some (OS (obj_flds fx_env3 (ofZ 0))) else if a =? 17 then Some (OS (get_flds 3 18 19)) else if a =? 18 then Some (OD (malloc 6)) else if a =? 19 then Some (OD (malloc 36)) else
  if a =? 20 then Some (OS (get_flds 7 21 22)) else if a =? 21 then Some (OD s) else if a =? 22 then Some (OD c) else if a =? 30 then Some (OD (malloc 36)) else None.
Lemma get_case : exists s c rs rc, let l := [get_pt 3 (malloc 6) (malloc 36); get_pt 7 s c] in let h := get_mem s c in let fs := obj_flds fx_env3 (ofZ 0) in
  v_dim fx_env3 = 3 /\ h (a_this home) = Some (OS fs) /\ this_in fs fx_env3 home /\ a_this home <> 30 /\ h 30 = Some (OD (malloc 36)) /\
  Forall2 (gp_in "macro_stress" g_stress 30 h) l [17; 20] /\ Forall2 (gp_in "macro_ctan" g_ctan 30 h) l [17; 20] /\
  (forall i, 0 <= i < 6 -> aget s i = Some (ofZ i)) /\ get_macro_stress fx_env3 7 l = Ok (Some rs) /\ get_macro_ctan fx_env3 7 l = Ok (Some rc) /\
  get_macro_stress fx_env3 8 l = Ok None.
Proof.
  destruct (fill_ok (fun i => ofZ i : fx) 6 (malloc 6)) as (s & _ & Ls & Ps & Gs & _); [cbn; lia|].
  destruct (fill_ok (fun i => ofZ i : fx) 36 (malloc 36)) as (c & _ & Lc & Pc & _); [cbn; lia|].
  exists s, c, (map (oval s) (zrange 0 6)), (map (oval c) (zrange 0 36)). cbv zeta.
  split; [reflexivity|]. split; [reflexivity|]. split; [apply obj_flds_case|]. split; [cbn; lia|]. split; [reflexivity|].
  split. { constructor; [exists (get_flds 3 18 19), 18|constructor; [exists (get_flds 7 21 22), 21|constructor]]; repeat split; lia. }
  split. { constructor; [exists (get_flds 3 18 19), 19|constructor; [exists (get_flds 7 21 22), 22|constructor]]; repeat split; lia. }
  split; [exact Gs|]. split; [|split; [|reflexivity]].
  - change (bind (rdl s 6) (fun x => Ok (Some x)) = Ok (Some (map (oval s) (zrange 0 6)))). rewrite (rdl_ok s 6 Ps). reflexivity.
  - change (bind (rdl c 36) (fun x => Ok (Some x)) = Ok (Some (map (oval c) (zrange 0 36)))). rewrite (rdl_ok c 36 Pc). reflexivity.
Qed.
