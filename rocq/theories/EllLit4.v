(** The syntax trees of ell_set_zero_mat, ell_add_struct2D/3D and ell_set_bc_2D/3D
    (src/ell.cpp:40-46, 329-399, 401-705) compute what EllModel.v says. *)
From Coq Require Import String.
From Verif Require Import Base Scalar EllModel Clite CliteRules CliteEmit EllAst EllLit.
Local Open Scope string_scope.
Local Open Scope Z_scope.

Ltac kv := cbv [kval kvals look lookf ki kf ka kd add adda String.eqb Ascii.eqb Bool.eqb andb kop]; reflexivity.
Ltac kc := cbv [kok koks kval look lookf ki kf ka kd add adda String.eqb Ascii.eqb Bool.eqb andb kop app allp List.length Z.of_nat];
  try exact I.

(** one rule *)
Ltac em1 :=
  lazymatch goal with
  | |- emits _ _ _ _ _ _ (SSeq (SSet _ _) (SFor _ _ _ (SSeq _ (SSet _ _)))) _ =>
      eapply emits_carry; [kv|kv|kv|kc|kc|kc|reflexivity|reflexivity|reflexivity|intros ? ?]
  | |- emits _ _ _ _ _ _ (SSeq (SSet _ _) _) _ => eapply emits_set; [kv|kc|reflexivity|]
  | |- emits _ _ _ _ _ _ (SSeq (SArr _ _) _) _ => eapply emits_arr; [kv|kc|reflexivity|]
  | |- emits _ _ _ _ _ _ (SSeq _ _) _ => eapply emits_seq
  | |- emits _ _ _ _ _ _ (SFor _ _ _ _) _ =>
      eapply emits_for; [kv|kv|kc|kc|reflexivity|intros ? ?]
  | |- emits _ _ _ _ _ _ (SIf _ _ _) _ => eapply emits_if; [kv|kc|intros ?|intros ?]
  | |- emits _ _ _ _ _ _ SSkip _ => apply emits_skip
  | |- emits _ _ _ OD wstep _ (SStore _ _ _) _ =>
      eapply emits_store_d; [kv|kv|kv|cbv [cd]; reflexivity|kc|kc|kc]
  | |- emits _ _ _ OD astep _ (SStore _ _ _) _ => eapply emits_add_d; [kv|kv|kv|kc|kc|kc]
  | |- emits _ _ _ _ _ _ (block _) _ => cbn [block]
  end.

Lemma flat_map_single {A B} (g : A -> B) l : flat_map (fun x => [g x]) l = map g l.
Proof. induction l as [|a l IH]; cbn; [reflexivity|now rewrite IH]. Qed.
Lemma flat_map_in {A B} (f g : A -> list B) l :
  (forall a, In a l -> f a = g a) -> flat_map f l = flat_map g l.
Proof.
  induction l as [|a l IH]; cbn; intros H; [reflexivity|].
  rewrite H by auto. now rewrite IH by auto.
Qed.

Lemma app_cong {A} (l l' r r' : list A) : l = l' -> r = r' -> (l ++ r = l' ++ r')%list.
Proof. now intros -> ->. Qed.

(** equality of lists of stores *)
Ltac conc x := match x with
  | Z0 => idtac | Zpos _ => idtac end.
Ltac le :=
  lazymatch goal with
  | |- (_ ++ _)%list = (_ ++ _)%list => apply app_cong; le
  | |- (if ?c then _ else _) = (if ?c then _ else _) => destruct c; le
  | |- [] = [] => reflexivity
  | |- flat_map _ ?l = flat_map _ ?l => apply flat_map_ext; intros ?; le
  | |- flat_map _ ?l = map _ ?l => rewrite flat_map_single; apply map_ext; intros ?; le
  | |- [_] = [_] => apply (f_equal (fun x => [x])); le
  | |- (_, _) = (_, _) => apply f_equal2; [cbv [nth Z.to_nat Pos.to_nat Pos.iter_op Init.Nat.add]; ring | reflexivity]
  | |- flat_map _ (zrange ?a ?b) = flat_map _ _ =>
      conc a; conc b; let l := eval vm_compute in (zrange a b) in change (zrange a b) with l;
      cbn [map]; cbn [flat_map]; le
  end.

Section Fill.
Context {T : Type} `{OT : Ops T}.
Variables (bm bc bv : Z) (m : ell T).
Notation emv := (emits ell_prog bv T OD wstep).
Notation ema := (emits ell_prog bv T OD astep).

(** the fields of m *)
Definition kfm : list (string * string * @val T) :=
  [("m", "nrow", VI (e_nrow m)); ("m", "ncol", VI (e_ncol m)); ("m", "nnz", VI (e_nnz m));
   ("m", "cols", VP bc 0); ("m", "vals", VP bv 0)].

Definition body_of (f : fdef) : stmt := f_body f.

(** src/ell.cpp:40-46 *)
Lemma zero_emits :
  emv (mkKn [] kfm [] [])
    (SFor "i" (EI 0) (EBin Lt (EV "i") (EFld (EV "m") "nrow")) (SFor "j" (EI 0) (EBin Lt (EV "j") (EFld (EV "m") "nnz")) (SStore (EFld (EV "m") "vals") (EBin Add (EBin Mul (EV "i") (EFld (EV "m") "nnz")) (EV "j")) (EDbl (EI 0)))))
    (zero_stores (e_nrow m) (e_nnz m)).
Proof.
  unfold kfm. eapply emits_eq.
  - repeat em1.
  - unfold zero_stores. apply flat_map_ext. intros i. rewrite flat_map_single. reflexivity.
Qed.


(** src/ell.cpp:401-535 *)
Lemma bc2_emits nF nx ny :
  emv (mkKn [("nFields", VI nF); ("nx", VI nx); ("ny", VI ny)] kfm [] [])
    (body_of ast_ell_set_bc_2D) (bc2D_stores nF (e_nnz m) nx ny).
Proof.
  unfold kfm. eapply emits_eq.
  - unfold body_of, ast_ell_set_bc_2D. cbn [f_body]. repeat em1. all: lia.
  - unfold bc2D_stores, ident_row, zero_slots. cbv zeta. le.
Qed.

(** src/ell.cpp:537-705 *)
Lemma bc3_emits nF nx ny nz :
  emv (mkKn [("nFields", VI nF); ("nx", VI nx); ("ny", VI ny); ("nz", VI nz)] kfm [] [])
    (body_of ast_ell_set_bc_3D) (bc3D_stores nF (e_nnz m) nx ny nz).
Proof.
  unfold kfm. eapply emits_eq.
  - unfold body_of, ast_ell_set_bc_3D. cbn [f_body]. repeat em1. all: lia.
  - unfold bc3D_stores, ident_row, zero_slots, nod_index. cbv zeta. le.
Qed.


(** rows of a table stored one after the other *)
Lemma table_flat cr n w (sz : Z) :
  (forallb (fun k => forallb (fun l => nth (Z.to_nat (k * w + l)) (concat cr) 0 =? zznth cr k l)
      (zrange 0 w)) (zrange 0 n))%bool = true ->
  forall k l, 0 <= k < n -> 0 <= l < w -> nth (Z.to_nat (k * w + l)) (concat cr) 0 = zznth cr k l.
Proof.
  intros H k l Hk Hl. rewrite forallb_forall in H. specialize (H k ltac:(now apply in_zrange)).
  rewrite forallb_forall in H. specialize (H l ltac:(now apply in_zrange)). now apply Z.eqb_eq in H.
Qed.

Lemma ae_range npe nF i n k j :
  0 <= i < nF -> 0 <= n < npe -> 0 <= k < npe -> 0 <= j < nF ->
  0 <= k * (npe * nF * nF) + i * (npe * nF) + n * nF + j < npe * nF * (npe * nF).
Proof.
  intros Hi Hn Hk Hj.
  assert (A : 0 <= n * nF + j < npe * nF) by nia.
  assert (B : 0 <= i * (npe * nF) + (n * nF + j) < nF * (npe * nF)) by nia.
  assert (C : 0 <= k * (nF * (npe * nF)) + (i * (npe * nF) + (n * nF + j)) < npe * (nF * (npe * nF))) by nia.
  replace (k * (npe * nF * nF) + i * (npe * nF) + n * nF + j)
    with (k * (nF * (npe * nF)) + (i * (npe * nF) + (n * nF + j))) by ring.
  replace (npe * nF * (npe * nF)) with (npe * (nF * (npe * nF))) by ring. exact C.
Qed.

(** src/ell.cpp:329-358 *)
Lemma add2_emits ex ey nF nx ny Ae :
  ema (mkKn [("ex", VI ex); ("ey", VI ey); ("nFields", VI nF); ("nx", VI nx); ("ny", VI ny)] kfm []
        [("Ae", (4 * nF * (4 * nF), Ae))])
    (body_of ast_ell_add_struct2D) (add_struct 4 nF (e_nnz m) cols_row2 (sn2 nx ex ey) Ae).
Proof.
  unfold kfm. eapply emits_eq.
  - unfold body_of, ast_ell_add_struct2D. cbn [f_body]. repeat em1.
    all: try (split; [lia|split; lia]).
    now apply (ae_range 4).
  - unfold add_struct. cbv zeta. apply flat_map_ext; intros i. apply flat_map_in; intros n Hn.
    apply in_zrange in Hn. apply flat_map_in; intros k Hk. apply in_zrange in Hk.
    rewrite flat_map_single. apply map_ext. intros j.
    change ([4; 5; 8; 7; 3; 4; 7; 6; 0; 1; 4; 3; 1; 2; 5; 4]) with (concat cols_row2).
    rewrite (table_flat cols_row2 4 4 0 eq_refl k n Hk Hn). reflexivity.
Qed.

(** src/ell.cpp:360-399 *)
Lemma add3_emits ex ey ez nF nx ny nz Ae :
  ema (mkKn [("ex", VI ex); ("ey", VI ey); ("ez", VI ez); ("nFields", VI nF); ("nx", VI nx); ("ny", VI ny);
             ("nz", VI nz)] kfm []
        [("Ae", (8 * nF * (8 * nF), Ae))])
    (body_of ast_ell_add_struct3D) (add_struct 8 nF (e_nnz m) cols_row3 (sn3 nx ny ex ey ez) Ae).
Proof.
  unfold kfm. eapply emits_eq.
  - unfold body_of, ast_ell_add_struct3D. cbn [f_body]. repeat em1.
    all: try (split; [lia|split; lia]).
    now apply (ae_range 8).
  - unfold add_struct. cbv zeta. apply flat_map_ext; intros i. apply flat_map_in; intros n Hn.
    apply in_zrange in Hn. apply flat_map_in; intros k Hk. apply in_zrange in Hk.
    rewrite flat_map_single. apply map_ext. intros j.
    match goal with |- context [nth (Z.to_nat (k * 8 + n)) ?l 0] => change l with (concat cols_row3) end.
    rewrite (table_flat cols_row3 8 8 0 eq_refl k n Hk Hn). reflexivity.
Qed.

End Fill.
