(** The syntax trees of get_nl_flag, src/micro.cpp, run over a list of Gauss points, against the model. *)
From Coq Require Import String FMapPositive.
From Verif Require Import Base Scalar MicroModel Clite CliteRules HomAst FlagAst Sym SymStep EllModel AssemblyModel
  EllLit EllLit2 HomLit3 AsmCalls AsmPure AsmLit AsmLit2 AsmLit14 AsmLit15 EllSpec FixInst GpLit GpLit2 GetLit.
Local Open Scope string_scope.
Local Open Scope Z_scope.

Section Flag.
Context {T : Type} `{OT : Ops T}.
Notation state := (@state T).
Notation obj := (@Clite.obj T).
Notation val := (@val T).

(** an entry in memory outside the caller's variable: its id, and whether it has old variables *)
Definition gp_has (oa : Z) (h : Z -> option obj) (g : gp T) (a : Z) : Prop :=
  exists gs, a <> oa /\ h a = Some (OS gs) /\ fget gs "id" = Some (Some (VI (g_id g))) /\
  match g_n g with None => fget gs "int_vars_n" = Some (Some VNull) | Some _ => exists b, fget gs "int_vars_n" = Some (ptr b) end.
(** the caller's variable holds v *)
Definition int_at (h : Z -> option obj) (oa v : Z) : Prop := exists z, h oa = Some (OI z) /\ 1 <= alen z /\ aget z 0 = Some v.

Lemma flag_head this id oa k (h : Z -> option obj) z : h oa = Some (OI z) -> 1 <= alen z ->
  exists st, calls flag_prog "flag_head" [VP this 0; VI id; VP oa 0] h k (Ok (st, Nrm)) /\ int_at (mem st) oa 0 /\ (forall d, d <> oa -> mem st d = h d) /\ nxt st = k.
Proof.
  intros M L. destruct (wr_ok z 0 0 ltac:(lia)) as (z' & W & L' & G). specialize (G 0). cbn [Z.eqb] in G.
  eexists. split; [|split; [|split]].
  - unfold calls. cbn. apply (runs_istore flag_prog _ _ _ _ oa 0 0 0 z z'); [reflexivity|reflexivity|reflexivity|exact M|exact W].
  - exists z'. cbn [mem set_mem]. rewrite Z.eqb_refl. split; [reflexivity|]. split; [lia|exact G].
  - intros d N. cbn [mem set_mem]. destruct (Z.eqb_spec d oa); [contradiction|reflexivity].
  - reflexivity.
Qed.

Lemma flag_miss this id oa k g a (h : Z -> option obj) : gp_has oa h g a -> g_id g <> id ->
  exists st, calls flag_prog "flag_gp" [VP this 0; VP a 0; VI id; VP oa 0] h k (Ok (st, Nrm)) /\ mem st = h /\ nxt st = k.
Proof.
  intros (gs & _ & MG & GI & _) NI. eexists. split; [|split].
  - unfold calls. cbn. apply (runs_if flag_prog _ _ _ _ (VI 0) false); [|reflexivity|apply runs_skip].
    apply (eval_bin Eq _ _ _ (VI (g_id g)) (VI id)); [|reflexivity|].
    + cbn. unfold load_fld. cbn [mem]. now rewrite MG, GI.
    + cbn. destruct (Z.eqb_spec (g_id g) id); [contradiction|reflexivity].
  - reflexivity.
  - reflexivity.
Qed.
Lemma flag_hit this id oa k g a (h : Z -> option obj) v : gp_has oa h g a -> g_id g = id -> int_at h oa v ->
  exists st, calls flag_prog "flag_gp" [VP this 0; VP a 0; VI id; VP oa 0] h k (Ok (st, Brk)) /\
    int_at (mem st) oa (match g_n g with Some _ => 1 | None => 0 end) /\ (forall d, d <> oa -> mem st d = h d) /\ nxt st = k.
Proof.
  intros (gs & NA & MG & GI & GN) EI0 (z & M & L & _). set (q := match g_n g with Some _ => 1 | None => 0 end).
  destruct (wr_ok z 0 q ltac:(lia)) as (z' & W & L' & G). specialize (G 0). cbn [Z.eqb] in G.
  eexists. split; [|split; [|split]].
  - unfold calls. cbn. apply (runs_if flag_prog _ _ _ _ (VI 1) true); [|reflexivity|].
    + apply (eval_bin Eq _ _ _ (VI (g_id g)) (VI id)); [|reflexivity|].
      * cbn. unfold load_fld. cbn [mem]. now rewrite MG, GI.
      * cbn. destruct (Z.eqb_spec (g_id g) id); [reflexivity|contradiction].
    + eapply runs_seq; [|apply runs_break].
      apply (runs_istore flag_prog _ _ _ _ oa 0 0 q z z'); [reflexivity|reflexivity| |exact M|exact W].
      unfold q. destruct (g_n g).
      * destruct GN as (b & GN). apply (eval_bin Ne _ _ _ (VP b 0) VNull); [|reflexivity|reflexivity]. cbn. unfold load_fld. cbn [mem]. now rewrite MG, GN.
      * apply (eval_bin Ne _ _ _ VNull VNull); [|reflexivity|reflexivity]. cbn. unfold load_fld. cbn [mem]. now rewrite MG, GN.
  - exists z'. cbn [mem set_mem]. rewrite Z.eqb_refl. split; [reflexivity|]. split; [lia|exact G].
  - intros d N. cbn [mem set_mem]. destruct (Z.eqb_spec d oa); [contradiction|reflexivity].
  - reflexivity.
Qed.

Lemma flag_walk this id oa k l : forall al (h : Z -> option obj), Forall2 (gp_has oa h) l al -> int_at h oa 0 ->
  exists h', walk flag_prog "flag_gp" this [VI id; VP oa 0] al h k h' k /\ int_at h' oa (get_nl_flag id l) /\ (forall d, d <> oa -> h' d = h d).
Proof.
  induction l as [|g l IH]; intros al h FA I0; inversion FA as [|g0 a l0 al' GA FA']; subst; unfold get_nl_flag; cbn [lookup].
  - exists h. split; [apply walk_end|]. auto.
  - destruct (Z.eqb_spec (g_id g) id) as [Q|Q].
    + destruct (flag_hit this id oa k g a h 0 GA Q I0) as (st & C & M & O & N). exists (mem st). split; [rewrite <- N at 2; now apply walk_break|]. auto.
    + destruct (flag_miss this id oa k g a h GA Q) as (st & C & M & N). destruct (IH al' h FA' I0) as (h' & W & R).
      exists h'. split; [eapply walk_next; [exact C|]; rewrite M, N; exact W|exact R].
Qed.

(** get_nl_flag, src/micro.cpp:167-175 *)
Theorem flag_text this id oa k (h : Z -> option obj) z l al : h oa = Some (OI z) -> 1 <= alen z -> Forall2 (gp_has oa h) l al ->
  exists st h', calls flag_prog "flag_head" [VP this 0; VI id; VP oa 0] h k (Ok (st, Nrm)) /\
    walk flag_prog "flag_gp" this [VI id; VP oa 0] al (mem st) (nxt st) h' k /\
    (exists z', h' oa = Some (OI z') /\ aget z' 0 = Some (get_nl_flag id l)) /\ (forall d, d <> oa -> h' d = h d).
Proof.
  intros M L FA. destruct (flag_head this id oa k h z M L) as (st & C & I0 & O & N).
  assert (FA1 : Forall2 (gp_has oa (mem st)) l al).
  { clear - FA O. induction FA as [|g a l al (gs & NA & R) FA IH]; constructor; [|exact IH]. exists gs. rewrite O by exact NA. auto. }
  destruct (flag_walk this id oa k l al (mem st) FA1 I0) as (h' & W & (z' & X & _ & Y) & R). exists st, h'. split; [exact C|]. split; [rewrite N; exact W|].
  split; [exists z'; auto|]. intros d D. now rewrite R, O.
Qed.
End Flag.

(** three points, the second with old variables; a variable not yet set *)
Definition flag_flds (id : Z) (n : option (@val fx)) : list (string * option (@val fx)) := [("id", Some (VI id)); ("int_vars_n", n)].
Definition flag_mem (a : Z) : option (@Clite.obj fx) :=
  if a =? 17 then Some (OS (flag_flds 3 (Some VNull))) else if a =? 18 then Some (OS (flag_flds 7 (ptr 30))) else if a =? 19 then Some (OS (flag_flds 9 (Some VNull))) else
  if a =? 20 then Some (OI (malloc 1)) else None.
Lemma flag_case : exists l : list (gp fx), flag_mem 20 = Some (OI (malloc 1)) /\ 1 <= alen (malloc (T := Z) 1) /\ Forall2 (gp_has 20 flag_mem) l [17; 18; 19] /\
  get_nl_flag 3 l = 0 /\ get_nl_flag 7 l = 1 /\ get_nl_flag 9 l = 0 /\ get_nl_flag 8 l = 0.
Proof.
  exists [mkGp 3 (malloc 7) None None (malloc 6) (malloc 6) (malloc 36) (malloc 7) inv_min;
    mkGp 7 (malloc 7) (Some (malloc 8)) (Some (malloc 8)) (malloc 6) (malloc 6) (malloc 36) (malloc 7) inv_min; mkGp 9 (malloc 7) None None (malloc 6) (malloc 6) (malloc 36) (malloc 7) inv_min].
  split; [reflexivity|]. split; [cbn; lia|]. split; [|repeat split].
  constructor; [exists (flag_flds 3 (Some VNull))|constructor; [exists (flag_flds 7 (ptr 30))|constructor; [exists (flag_flds 9 (Some VNull))|constructor]]]; (split; [lia|]); (split; [reflexivity|]); (split; [reflexivity|]); cbn [g_n];
    [reflexivity|exists 30; reflexivity|reflexivity].
Qed.
