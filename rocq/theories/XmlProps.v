(** The VTU files are XML documents. *)
From Coq Require Import String Ascii DecimalString DecimalZ ZifyBool.
From Verif Require Import Base Scalar EllSpec EllInit EllModel EllAsm EllFinal Grid AssemblyModel AsmPure AsmRun MicroModel OutputModel NewtonBase FieldsBase ApiBase ApiRun ApiHist Build ApiSpec ApiProps VtuProps VtuData OutProps.
Open Scope string_scope.
Open Scope list_scope.
Open Scope Z_scope.

(** ** A reader of XML *)
(** The part of XML 1.0 without references, comments, CDATA, empty-element tags and single
    quotes: whatever this reader accepts is a well-formed document. *)
Inductive event := Start (name : string) (attrs : list (string * string)) | End (name : string) | Word (w : string).
Inductive mode :=
| Txt (w : string)                                            (* character data; the word being read *)
| Lt                                                          (* after < *)
| Nm (n : string)                                             (* in the name of a start tag *)
| Tg (n : string) (l : list (string * string))                (* after a space in a start tag *)
| An (n : string) (l : list (string * string)) (a : string)   (* in the name of an attribute *)
| Aq (n : string) (l : list (string * string)) (a : string)   (* after = *)
| Av (n : string) (l : list (string * string)) (a v : string) (* in the value of an attribute *)
| Ax (n : string) (l : list (string * string))                (* after the value of an attribute *)
| Cl (n : string).                                            (* in an end tag *)
(** the mode, the open elements, whether the root has been seen *)
Definition xst : Type := mode * list string * bool.
Definition snoc (s : string) (c : ascii) : string := (s ++ String c "")%string.
Definition code (c : ascii) : N := N_of_ascii c.
Definition blank (c : ascii) : bool := existsb (N.eqb (code c)) [32; 9; 10; 13]%N.
Definition printable (c : ascii) : bool := (N.leb 32 (code c) && N.leb (code c) 126)%bool.
Definition is_c (c : ascii) (s : string) : bool := String.eqb (String c "") s.
Definition letter (c : ascii) : bool :=
  ((N.leb 65 (code c) && N.leb (code c) 90) || (N.leb 97 (code c) && N.leb (code c) 122) || is_c c "_")%bool.
Definition digit (c : ascii) : bool := (N.leb 48 (code c) && N.leb (code c) 57)%bool.
Definition name_char (c : ascii) : bool := (letter c || digit c || is_c c "-" || is_c c ".")%bool.
Definition flush (w : string) : list event := if String.eqb w "" then [] else [Word w].
Definition open_tag (n : string) (l : list (string * string)) (k : list string) : option (xst * list event) := Some ((Txt "", n :: k, true), [Start n l]).
Definition xstep (c : ascii) (s : xst) : option (xst * list event) :=
  let '(m, k, r) := s in
  match m with
  | Txt w => if is_c c "<" then Some ((Lt, k, r), flush w)
    else if blank c then Some ((Txt "", k, r), flush w)
    else if (is_c c "&" || is_c c "]" || negb (printable c))%bool then None
    else match k with [] => None | _ => Some ((Txt (snoc w c), k, r), []) end
  | Lt => if is_c c "/" then Some ((Cl "", k, r), [])
    else if letter c then match k, r with [], true => None | _, _ => Some ((Nm (snoc "" c), k, r), []) end else None
  | Nm n => if name_char c then Some ((Nm (snoc n c), k, r), [])
    else if blank c then Some ((Tg n [], k, r), []) else if is_c c ">" then open_tag n [] k else None
  | Tg n l => if blank c then Some ((Tg n l, k, r), []) else if is_c c ">" then open_tag n l k
    else if letter c then Some ((An n l (snoc "" c), k, r), []) else None
  | An n l a => if name_char c then Some ((An n l (snoc a c), k, r), [])
    else if is_c c "=" then if existsb (fun p => String.eqb a (fst p)) l then None else Some ((Aq n l a, k, r), []) else None
  | Aq n l a => if is_c c quote then Some ((Av n l a "", k, r), []) else None
  | Av n l a v => if is_c c quote then Some ((Ax n (l ++ [(a, v)]), k, r), [])
    else if (is_c c "<" || is_c c "&" || negb (printable c))%bool then None else Some ((Av n l a (snoc v c), k, r), [])
  | Ax n l => if blank c then Some ((Tg n l, k, r), []) else if is_c c ">" then open_tag n l k else None
  | Cl n => if is_c c ">" then match k with m :: k' => if String.eqb n m then Some ((Txt "", k', r), [End n]) else None | [] => None end
    else if name_char c then Some ((Cl (snoc n c), k, r), []) else None
  end.
Fixpoint scan (t : string) (s : xst) : option (xst * list event) :=
  match t with
  | "" => Some (s, [])
  | String c t => match xstep c s with None => None | Some (s, e) => option_map (fun p => (fst p, e ++ snd p)) (scan t s) end
  end.
Definition declaration : string := "<?xml version=" ++ quote ++ "1.0" ++ quote ++ "?>".
(** the tags and words of a well-formed document *)
Definition xml (t : string) : option (list event) :=
  if prefix declaration t then
    match scan (substring (String.length declaration) (String.length t - String.length declaration) t) (Txt "", [], false) with
    | Some ((Txt "", [], true), e) => Some e
    | _ => None
    end
  else None.
(** documents *)
Inductive node := El (name : string) (attrs : list (string * string)) (kids : list node) | Wd (w : string).
Fixpoint events (d : node) : list event :=
  match d with
  | El n l ks => Start n l :: flat_map events ks ++ [End n]
  | Wd w => [Word w]
  end.

(** ** The text of a file *)
(** ints in decimal *)
Definition decimal (z : Z) : string := NilZero.string_of_int (Z.to_int z).
(** what doubles are written with: digits, sign, point, exponent, inf and nan *)
Definition num_char (c : ascii) : bool := (digit c || is_c c "+" || is_c c "-" || is_c c "." || is_c c "e" || is_c c "i" || is_c c "n" || is_c c "f" || is_c c "a")%bool.
Fixpoint all_chars (p : ascii -> bool) (s : string) : bool := match s with "" => true | String c s => (p c && all_chars p s)%bool end.
Definition number (s : string) : Prop := s <> "" /\ all_chars num_char s = true.
Section Text.
Context {T : Type} (rt : T -> string).
Definition render (t : tok T) : string := match t with TS s => s | TI z => decimal z | TD x => rt x | NL => String (ascii_of_nat 10) "" end.
Fixpoint text (l : list (tok T)) : string := match l with [] => "" | t :: l => (render t ++ text l)%string end.
(** a token without its spaces *)
Fixpoint trim (s : string) : string := match s with "" => "" | String c s => if blank c then trim s else String c (trim s) end.
Definition spell (t : tok T) : string := trim (render t).
End Text.

(** ** The document of a VTU file *)
Definition darray (ty name nc : string) (ws : list string) : node :=
  El "DataArray" [("type", ty); ("Name", name); ("NumberOfComponents", nc); ("format", "ascii")] (map Wd ws).
Definition vtu_doc (np nc comps : string) (ps co os ty du db es ss et pl hd : list string) : node :=
  El "VTKFile" [("type", "UnstructuredGrid"); ("version", "0.1"); ("byte_order", "LittleEndian")]
   [El "UnstructuredGrid" []
    [El "Piece" [("NumberOfPoints", np); ("NumberOfCells", nc)]
     [El "Points" [] [darray "Float32" "Position" "3" ps];
      El "Cells" [] [darray "Int32" "connectivity" "1" co; darray "Int32" "offsets" "1" os; darray "UInt8" "types" "1" ty];
      El "PointData" [("Vectors", "displ,b")] [Wd ">"; darray "Float64" "displ" "3" du; darray "Float64" "b" "3" db];
      El "CellData" [] [darray "Float64" "strain" comps es; darray "Float64" "stress" comps ss; darray "Int32" "elem_type" "1" et;
                        darray "Float64" "plasticity" "1" pl; darray "Float64" "hardening" "1" hd]]]].

(** ** Facts about the scanner *)
Lemma sapp_nil s : (s ++ "")%string = s.
Proof. induction s as [|c s IH]; [reflexivity|]. cbn. now rewrite IH. Qed.
Lemma sapp_assoc a b c : ((a ++ b) ++ c)%string = (a ++ (b ++ c))%string.
Proof. induction a as [|x a IH]; [reflexivity|]. cbn. now rewrite IH. Qed.
Lemma scan_app a b s : scan (a ++ b) s = match scan a s with None => None | Some (s1, e1) => option_map (fun p => (fst p, e1 ++ snd p)) (scan b s1) end.
Proof.
  revert s. induction a as [|c a IH]; intros s.
  - cbn. destruct (scan b s) as [(s1, e)|]; reflexivity.
  - cbn [append scan]. destruct (xstep c s) as [(s1, e1)|]; [|reflexivity]. rewrite IH. destruct (scan a s1) as [(s2, e2)|]; [|reflexivity].
    cbn [option_map fst snd]. destruct (scan b s2) as [(s3, e3)|]; [|reflexivity]. cbn [option_map fst snd]. now rewrite app_assoc.
Qed.
Lemma scan_then a b s s1 e1 s2 e2 : scan a s = Some (s1, e1) -> scan b s1 = Some (s2, e2) -> scan (a ++ b) s = Some (s2, e1 ++ e2).
Proof. intros A B. now rewrite scan_app, A, B. Qed.
Lemma decimal_number z : number (decimal z).
Proof.
  unfold number, decimal. assert (U : forall d, all_chars num_char (NilEmpty.string_of_uint d) = true) by (induction d; cbn; try rewrite IHd; reflexivity).
  assert (Z0 : forall d, NilZero.string_of_uint d <> "" /\ all_chars num_char (NilZero.string_of_uint d) = true).
  { intros d. unfold NilZero.string_of_uint. destruct d; [split; [discriminate|reflexivity]| | | | | | | | | |]; (split; [discriminate|apply U]). }
  destruct (Z.to_int z) as [d|d]; cbn [NilZero.string_of_int]; [apply Z0|]. split; [discriminate|]. cbn. apply Z0.
Qed.
Definition plain (c : ascii) : bool := negb (is_c c "<" || blank c || is_c c "&" || is_c c "]" || is_c c quote || negb (printable c))%bool.
Lemma num_plain c : num_char c = true -> plain c = true.
Proof. destruct c as [[] [] [] [] [] [] [] []]; vm_compute; congruence. Qed.
Lemma plain_inv c : plain c = true -> is_c c "<" = false /\ blank c = false /\ is_c c "&" = false /\ is_c c "]" = false /\ is_c c quote = false /\ printable c = true.
Proof. unfold plain. destruct (is_c c "<"), (blank c), (is_c c "&"), (is_c c "]"), (is_c c quote), (printable c); cbn; intuition congruence. Qed.
Lemma scan_word s w k r : all_chars num_char s = true -> k <> [] -> scan s (Txt w, k, r) = Some ((Txt (w ++ s)%string, k, r), []).
Proof.
  intros H K. revert w. induction s as [|c s IH]; intros w; [now rewrite sapp_nil|]. cbn [all_chars] in H. apply andb_prop in H. destruct H as (Hc & H).
  destruct (plain_inv c (num_plain c Hc)) as (A1 & A2 & A3 & A4 & _ & A5). cbn [scan xstep]. rewrite A1, A2, A3, A4, A5. cbn [orb negb].
  destruct k as [|x k]; [congruence|]. rewrite (IH H). cbn [option_map fst snd app]. unfold snoc. rewrite sapp_assoc. reflexivity.
Qed.
Lemma scan_value s n l a v k r : all_chars num_char s = true -> scan s (Av n l a v, k, r) = Some ((Av n l a (v ++ s)%string, k, r), []).
Proof.
  intros H. revert v. induction s as [|c s IH]; intros v; [now rewrite sapp_nil|]. cbn [all_chars] in H. apply andb_prop in H. destruct H as (Hc & H).
  destruct (plain_inv c (num_plain c Hc)) as (A1 & A2 & A3 & A4 & Aq & A5). cbn [scan xstep]. rewrite A1, Aq, A3, A5. cbn [orb negb].
  rewrite (IH H). cbn [option_map fst snd app]. unfold snoc. rewrite sapp_assoc. reflexivity.
Qed.
Lemma trim_number s : all_chars num_char s = true -> trim s = s.
Proof.
  induction s as [|c s IH]; [reflexivity|]. cbn [all_chars trim]. intros H. apply andb_prop in H. destruct H as (Hc & H).
  destruct (plain_inv c (num_plain c Hc)) as (_ & -> & _). now rewrite (IH H).
Qed.

(** ** Bodies: numbers with something between any two *)
Section Body.
Context {T : Type} `{OT : Ops T} (rt : T -> string) (Hrt : forall x, number (rt x)).
Notation toks := (list (tok T)).
(** true: in the middle of a word *)
Definition gap1 (b : bool) (t : tok T) : option bool :=
  match t with
  | NL => Some false
  | TI _ | TD _ => if b then None else Some true
  | TS s => if String.eqb s " " then Some false else if String.eqb s " 0.0" then Some true else if b then None
    else if String.eqb s "0.0" then Some true else if (String.eqb s "9 " || String.eqb s "12 ")%bool then Some false else None
  end.
Fixpoint gap (b : bool) (l : toks) : option bool := match l with [] => Some b | t :: l => match gap1 b t with None => None | Some b => gap b l end end.
Definition gap_ok (l : toks) : Prop := gap false l = Some false.
Lemma gap_app b l m : gap b (l ++ m) = match gap b l with None => None | Some b => gap b m end.
Proof. revert b. induction l as [|t l IH]; intros b; [reflexivity|]. cbn [app gap]. destruct (gap1 b t); [apply IH|reflexivity]. Qed.
Lemma gap_flat {A} (f : A -> toks) l : (forall x, In x l -> gap_ok (f x)) -> gap_ok (flat_map f l).
Proof. unfold gap_ok. induction l as [|a l IH]; intros H; [reflexivity|]. cbn [flat_map]. rewrite gap_app, (H a) by now left. apply IH. intros; apply H; now right. Qed.
Lemma gap_cat l m : gap_ok l -> gap_ok m -> gap_ok (l ++ m).
Proof. unfold gap_ok. intros A B. now rewrite gap_app, A. Qed.
Definition inword (w : string) : bool := negb (String.eqb w "").
Lemma scan_tok t b b' w k r : gap1 b t = Some b' -> inword w = b -> k <> [] ->
  exists w' e, scan (render rt t) (Txt w, k, r) = Some ((Txt w', k, r), e) /\ inword w' = b' /\
    e ++ flush w' = flush w ++ map (fun t => Word (spell rt t)) (filter word [t]).
Proof.
  intros G B K. destruct k as [|k0 k]; [congruence|]. clear K.
  assert (Num : forall s, number s -> b = false -> exists w' e, scan s (Txt w, k0 :: k, r) = Some ((Txt w', k0 :: k, r), e) /\ inword w' = true /\
    e ++ flush w' = flush w ++ [Word (trim s)]).
  { intros s (N1 & N2) Eb. subst b. unfold inword in Eb. apply Bool.negb_false_iff in Eb. apply String.eqb_eq in Eb. subst w.
    exists s, []. rewrite scan_word by (assumption || discriminate). split; [reflexivity|]. assert (E : String.eqb s "" = false) by now apply String.eqb_neq.
    unfold inword, flush. rewrite E. rewrite trim_number by exact N2. split; reflexivity. }
  destruct t as [s|z|x|]; cbn [gap1 render] in *.
  - destruct (String.eqb s " ") eqn:E1.
    { apply String.eqb_eq in E1. subst s. injection G as <-. exists "", (flush w). cbn. rewrite app_nil_r. repeat split. }
    destruct (String.eqb s " 0.0") eqn:E2.
    { apply String.eqb_eq in E2. subst s. injection G as <-. exists "0.0", (flush w). cbn. rewrite !app_nil_r. repeat split. }
    destruct b; [discriminate|]. unfold inword in B. apply Bool.negb_false_iff in B. apply String.eqb_eq in B. subst w.
    destruct (String.eqb s "0.0") eqn:E3.
    { apply String.eqb_eq in E3. subst s. injection G as <-. exists "0.0", []. repeat split. }
    destruct (String.eqb s "9 " || String.eqb s "12 ")%bool eqn:E4; [|discriminate]. injection G as <-. apply Bool.orb_true_iff in E4.
    destruct E4 as [E|E]; apply String.eqb_eq in E; subst s; [exists "", [Word "9"]|exists "", [Word "12"]]; repeat split.
  - destruct b; [discriminate|]. injection G as <-. destruct (Num _ (decimal_number z) eq_refl) as (w' & e & A & C & D). exists w', e. now repeat split.
  - destruct b; [discriminate|]. injection G as <-. destruct (Num _ (Hrt x) eq_refl) as (w' & e & A & C & D). exists w', e. now repeat split.
  - injection G as <-. exists "", (flush w). cbn. rewrite !app_nil_r. repeat split.
Qed.
Lemma scan_toks l b b' w k r : gap b l = Some b' -> inword w = b -> k <> [] ->
  exists w' e, scan (text rt l) (Txt w, k, r) = Some ((Txt w', k, r), e) /\ inword w' = b' /\
    e ++ flush w' = flush w ++ map (fun t => Word (spell rt t)) (filter word l).
Proof.
  revert b w. induction l as [|t l IH]; intros b w G B K.
  - injection G as <-. exists w, []. cbn. rewrite app_nil_r. now repeat split.
  - cbn [gap] in G. destruct (gap1 b t) as [b1|] eqn:G1; [|discriminate]. destruct (scan_tok t b b1 w k r G1 B K) as (w1 & e1 & S1 & I1 & P1).
    destruct (IH b1 w1 G I1 K) as (w2 & e2 & S2 & I2 & P2). exists w2, (e1 ++ e2). cbn [text]. split; [now apply (scan_then _ _ _ _ _ _ _ S1 S2)|]. split; [exact I2|].
    change (t :: l) with ([t] ++ l). rewrite filter_app, map_app. rewrite <- app_assoc, P2, app_assoc, P1, app_assoc. reflexivity.
Qed.
Lemma scan_body l k r : gap_ok l -> k <> [] -> scan (text rt l) (Txt "", k, r) = Some ((Txt "", k, r), map Word (map (spell rt) (filter word l))).
Proof.
  intros G K. destruct (scan_toks l false false "" k r G eq_refl K) as (w & e & A & B & C). unfold inword in B. apply Bool.negb_false_iff in B. apply String.eqb_eq in B. subst w.
  cbn in C. rewrite app_nil_r in C. now rewrite A, C, map_map.
Qed.
Lemma text_app l m : text rt (l ++ m) = (text rt l ++ text rt m)%string.
Proof. induction l as [|t l IH]; [reflexivity|]. cbn [app text]. now rewrite IH, sapp_assoc. Qed.

(** *** the bodies of a file *)
Lemma gap_pts V : gap_ok (vtu_points V).
Proof. unfold vtu_points. destruct (v_dim V =? 2); [|destruct (v_dim V =? 3); [|reflexivity]]; repeat (apply gap_flat; intros); reflexivity. Qed.
Lemma gap_conn V : gap_ok (vtu_conn V).
Proof. unfold vtu_conn. destruct (v_dim V =? 2); [|destruct (v_dim V =? 3); [|reflexivity]]; repeat (apply gap_flat; intros); reflexivity. Qed.
Lemma gap_offs V : gap_ok (vtu_offsets V).
Proof. rewrite offsets_eq. apply gap_cat; [|reflexivity]. apply gap_flat. intros; reflexivity. Qed.
Lemma gap_typs V : gap_ok (vtu_types V).
Proof. unfold vtu_types. apply gap_cat; [|reflexivity]. apply gap_flat. intros x _. destruct (v_dim V =? 2); [reflexivity|destruct (v_dim V =? 3); reflexivity]. Qed.
Ltac peel H := repeat match type of H with bind _ _ = Ok _ => apply bind_ok in H; let x := fresh "x" in let E := fresh "E" in destruct H as (x & E & H) end.
Lemma gap_nodal V a s : vtu_nodal V a = Ok s -> gap_ok s.
Proof.
  intros H. unfold vtu_nodal in H. apply emit_inv in H. destruct H as (g & Hg & ->). apply gap_flat. intros x Hx. apply Hg in Hx.
  destruct (v_dim V =? 2); [|destruct (v_dim V =? 3)]; peel Hx; injection Hx as <-; reflexivity.
Qed.
Lemma gap_cell V a s : vtu_cell V a = Ok s -> gap_ok s.
Proof.
  intros H. unfold vtu_cell in H. apply emit_inv in H. destruct H as (g & Hg & ->). apply gap_flat. intros x Hx. apply Hg in Hx.
  apply bind_ok in Hx. destruct Hx as (t & E & [= <-]). apply emit_inv in E. destruct E as (h & Hh & ->). apply gap_cat; [|reflexivity]. apply gap_flat.
  intros y Hy. apply Hh in Hy. peel Hy. injection Hy as <-. reflexivity.
Qed.
Lemma gap_nums {A} (f : A -> res toks) l s : (' t <- emit f l ;; Ok (t ++ [NL])) = Ok s -> (forall x t, f x = Ok t -> gap_ok t) -> gap_ok s.
Proof.
  intros H Hq. apply bind_ok in H. destruct H as (t & E & [= <-]). apply emit_inv in E. destruct E as (h & Hh & ->). apply gap_cat; [|reflexivity]. apply gap_flat.
  intros y Hy. apply Hh in Hy. now apply Hq in Hy.
Qed.
Lemma chunk h d k e k' : scan (text rt h) (Txt "", k, true) = Some ((Txt "", k', true), e) -> gap_ok d -> k' <> [] ->
  scan (text rt (h ++ d)) (Txt "", k, true) = Some ((Txt "", k', true), e ++ map Word (map (spell rt) (filter word d))).
Proof. intros H G K. rewrite text_app. apply (scan_then _ _ _ _ _ _ _ H). now apply scan_body. Qed.
Lemma words_kids l : flat_map events (map Wd l) = map Word l.
Proof. induction l as [|w l IH]; [reflexivity|]. cbn. now rewrite IH. Qed.
Lemma substr_app a b : substring (String.length a) (String.length (a ++ b) - String.length a) (a ++ b) = b.
Proof.
  induction a as [|c a IH].
  - change (String.length "") with 0%nat. rewrite Nat.sub_0_r. cbn [append]. induction b as [|c b IH]; [reflexivity|]. cbn. now rewrite IH.
  - cbn [append String.length Nat.sub substring]. exact IH.
Qed.
Lemma prefix_app a b : prefix a (a ++ b) = true.
Proof. induction a as [|c a IH]; [destruct b; reflexivity|]. cbn. destruct (ascii_dec c c); [exact IH|congruence]. Qed.
Lemma xml_of t e : scan t (Txt "", [], false) = Some ((Txt "", [], true), e) -> xml (declaration ++ t) = Some e.
Proof. intros H. unfold xml. rewrite prefix_app, substr_app, H. reflexivity. Qed.

Theorem vtu_xml o f : write_vtu o = Ok f -> v_dim (o_env o) = 2 \/ v_dim (o_env o) = 3 ->
  exists np nc ps co os ty du db es ss et pl hd, piece f = Some (np, nc) /\
    data "Position" f = Some ps /\ data "connectivity" f = Some co /\ data "offsets" f = Some os /\ data "types" f = Some ty /\
    data "displ" f = Some du /\ data "b" f = Some db /\ data "strain" f = Some es /\ data "stress" f = Some ss /\
    data "elem_type" f = Some et /\ data "plasticity" f = Some pl /\ data "hardening" f = Some hd /\
    let w := map (spell rt) in
    xml (text rt f) = Some (events (vtu_doc (decimal np) (decimal nc) (if v_dim (o_env o) =? 2 then "3" else "6")
      (w ps) (w co) (w os) (w ty) (w du) (w db) (w es) (w ss) (w et) (w pl) (w hd))).
Proof.
  intros H D. destruct (arrays o f H D) as (Ap & A1 & A2 & A3 & A4 & su & sb & se & ss & st & sq & sh & E1 & E2 & E3 & E4 & E5 & E6 & E7 & A5 & A6 & A7 & A8 & A9 & A10 & A11).
  destruct (vtu_secs o f H) as (su' & sb' & se' & ss' & st' & sq' & sh' & E1' & E2' & E3' & E4' & E5' & E6' & E7' & Ef).
  assert (su' = su) by congruence. assert (sb' = sb) by congruence. assert (se' = se) by congruence. assert (ss' = ss) by congruence.
  assert (st' = st) by congruence. assert (sq' = sq) by congruence. assert (sh' = sh) by congruence. subst su' sb' se' ss' st' sq' sh'. clear E1' E2' E3' E4' E5' E6' E7'.
  do 13 eexists. do 12 (split; [eassumption|]). clear Ap A1 A2 A3 A4 A5 A6 A7 A8 A9 A10 A11 H. subst f. set (V := o_env o) in *.
  pose proof (gap_nodal _ _ _ E1) as Q1. pose proof (gap_nodal _ _ _ E2) as Q2. pose proof (gap_cell _ _ _ E3) as Q3. pose proof (gap_cell _ _ _ E4) as Q4.
  assert (Q5 : gap_ok st) by (apply (gap_nums _ _ _ E5); intros x t Hx; peel Hx; injection Hx as <-; reflexivity).
  assert (Q6 : gap_ok sq) by (apply (gap_nums _ _ _ E6); intros x t Hx; apply bind_ok in Hx; destruct Hx as (y & _ & [= <-]); reflexivity).
  assert (Q7 : gap_ok sh) by (apply (gap_nums _ _ _ E7); intros x t Hx; apply bind_ok in Hx; destruct Hx as (y & _ & [= <-]); reflexivity).
  pose proof (gap_pts V) as P1. pose proof (gap_conn V) as P2. pose proof (gap_offs V) as P3. pose proof (gap_typs V) as P4. clear E1 E2 E3 E4 E5 E6 E7.
  assert (Nv : exists n, n = (if v_dim V =? 2 then "3" else "6") /\ nvoi_str V = n /\ (n = "3" \/ n = "6")) by (unfold nvoi_str; destruct (v_dim V =? 2); eexists; split; eauto).
  destruct Nv as (n & <- & En & Hn). unfold secs. fold V. rewrite En. clear En D.
  generalize dependent (vtu_points V). generalize dependent (vtu_conn V). generalize dependent (vtu_offsets V). generalize dependent (vtu_types V).
  destruct (decimal_number (nn V)) as (_ & N1). destruct (decimal_number (vcells V)) as (_ & N2).
  intros ty P4 os P3 co P2 ps P1.
  set (K0 := ["Piece"; "UnstructuredGrid"; "VTKFile"]).
  unfold flat. cbn [flat_map fst snd]. rewrite app_nil_r, <- !app_assoc.
  set (w := fun d => map Word (map (spell rt) (filter word d))).
  (* the head *)
  match goal with |- context [?h1 ++ ps ++ _] =>
    assert (S0 : text rt h1 = (declaration ++ text rt (tl h1))%string /\
       scan (text rt (tl h1)) (Txt "", [], false) = Some ((Txt "", "DataArray" :: "Points" :: K0, true),
         [Start "VTKFile" [("type", "UnstructuredGrid"); ("version", "0.1"); ("byte_order", "LittleEndian")]; Start "UnstructuredGrid" [];
          Start "Piece" [("NumberOfPoints", decimal (nn V)); ("NumberOfCells", decimal (vcells V))]; Start "Points" [];
          Start "DataArray" [("type", "Float32"); ("Name", "Position"); ("NumberOfComponents", "3"); ("format", "ascii")]]));
    [|set (H1 := h1) in *]
  end.
  { split; [reflexivity|]. cbn [tl].
    match goal with |- scan (text rt ?l) _ = _ => change l with (firstn 6 l ++ [TI (nn V)] ++ [nth 7 l NL] ++ [TI (vcells V)] ++ skipn 9 l) end.
    cbn [firstn skipn nth]. rewrite !text_app.
    eapply (scan_then _ _ _ (Av "Piece" [] "NumberOfPoints" "", ["UnstructuredGrid"; "VTKFile"], true) [_; _]); [reflexivity|].
    eapply (scan_then _ _ _ _ []); [cbn [text render]; rewrite sapp_nil; apply scan_value; exact N1|].
    eapply (scan_then _ _ _ (Av "Piece" [("NumberOfPoints", decimal (nn V))] "NumberOfCells" "", ["UnstructuredGrid"; "VTKFile"], true) []); [reflexivity|].
    eapply (scan_then _ _ _ _ []); [cbn [text render]; rewrite sapp_nil; apply scan_value; exact N2|]. reflexivity. }
  destruct S0 as (T1 & S1). rewrite text_app, T1, sapp_assoc. apply xml_of. clear T1. set (t1 := text rt (tl H1)) in *. clearbody t1. clear H1.
  assert (Go : forall h d rest k e k' er kr, scan (text rt h) (Txt "", k, true) = Some ((Txt "", k', true), e) -> gap_ok d -> k' <> [] ->
    scan (text rt rest) (Txt "", k', true) = Some ((Txt "", kr, true), er) -> scan (text rt (h ++ d ++ rest)) (Txt "", k, true) = Some ((Txt "", kr, true), e ++ w d ++ er)).
  { intros h d rest k e k' er kr A B C E. rewrite app_assoc, text_app. rewrite app_assoc. eapply scan_then; [apply chunk; eassumption|exact E]. }
  match goal with |- scan (t1 ++ text rt (ps ++ ?rest)) _ = _ =>
    assert (S2 : scan (text rt rest) (Txt "", "DataArray" :: "Points" :: K0, true) = Some ((Txt "", [], true),
      [End "DataArray"; End "Points"; Start "Cells" []; Start "DataArray" [("type", "Int32"); ("Name", "connectivity"); ("NumberOfComponents", "1"); ("format", "ascii")]] ++ w co ++
      [End "DataArray"; Start "DataArray" [("type", "Int32"); ("Name", "offsets"); ("NumberOfComponents", "1"); ("format", "ascii")]] ++ w os ++
      [End "DataArray"; Start "DataArray" [("type", "UInt8"); ("Name", "types"); ("NumberOfComponents", "1"); ("format", "ascii")]] ++ w ty ++
      [End "DataArray"; End "Cells"; Start "PointData" [("Vectors", "displ,b")]; Word ">";
       Start "DataArray" [("type", "Float64"); ("Name", "displ"); ("NumberOfComponents", "3"); ("format", "ascii")]] ++ w su ++
      [End "DataArray"; Start "DataArray" [("type", "Float64"); ("Name", "b"); ("NumberOfComponents", "3"); ("format", "ascii")]] ++ w sb ++
      [End "DataArray"; End "PointData"; Start "CellData" []; Start "DataArray" [("type", "Float64"); ("Name", "strain"); ("NumberOfComponents", n); ("format", "ascii")]] ++ w se ++
      [End "DataArray"; Start "DataArray" [("type", "Float64"); ("Name", "stress"); ("NumberOfComponents", n); ("format", "ascii")]] ++ w ss ++
      [End "DataArray"; Start "DataArray" [("type", "Int32"); ("Name", "elem_type"); ("NumberOfComponents", "1"); ("format", "ascii")]] ++ w st ++
      [End "DataArray"; Start "DataArray" [("type", "Float64"); ("Name", "plasticity"); ("NumberOfComponents", "1"); ("format", "ascii")]] ++ w sq ++
      [End "DataArray"; Start "DataArray" [("type", "Float64"); ("Name", "hardening"); ("NumberOfComponents", "1"); ("format", "ascii")]] ++ w sh ++
      [End "DataArray"; End "CellData"; End "Piece"; End "UnstructuredGrid"; End "VTKFile"]))
  end.
  { apply (Go _ co _ _ _ ("DataArray" :: "Cells" :: K0)); [reflexivity|exact P2|discriminate|].
    apply (Go _ os _ _ _ ("DataArray" :: "Cells" :: K0)); [reflexivity|exact P3|discriminate|].
    apply (Go _ ty _ _ _ ("DataArray" :: "Cells" :: K0)); [reflexivity|exact P4|discriminate|].
    apply (Go _ su _ _ _ ("DataArray" :: "PointData" :: K0)); [reflexivity|exact Q1|discriminate|].
    apply (Go _ sb _ _ _ ("DataArray" :: "PointData" :: K0)); [reflexivity|exact Q2|discriminate|].
    apply (Go _ se _ _ _ ("DataArray" :: "CellData" :: K0)); [destruct Hn as [-> | ->]; reflexivity|exact Q3|discriminate|].
    apply (Go _ ss _ _ _ ("DataArray" :: "CellData" :: K0)); [destruct Hn as [-> | ->]; reflexivity|exact Q4|discriminate|].
    apply (Go _ st _ _ _ ("DataArray" :: "CellData" :: K0)); [reflexivity|exact Q5|discriminate|].
    apply (Go _ sq _ _ _ ("DataArray" :: "CellData" :: K0)); [reflexivity|exact Q6|discriminate|].
    apply (Go _ sh _ _ _ ("DataArray" :: "CellData" :: K0)); [reflexivity|exact Q7|discriminate|].
    reflexivity. }
  assert (S3 := scan_body ps ("DataArray" :: "Points" :: K0) true P1). rewrite text_app.
  rewrite (scan_then _ _ _ _ _ _ _ S1 (scan_then _ _ _ _ _ _ _ (S3 ltac:(discriminate)) S2)).
  do 2 f_equal. unfold vtu_doc, darray. cbn [events flat_map app]. rewrite !words_kids. fold (w ps). unfold w. cbn [app]. repeat (rewrite <- !app_assoc; cbn [app]). reflexivity.
Qed.
End Body.

(** the file of an output call *)
Theorem output_xml {T} {OT : Ops T} (rt : T -> string) o0 cs o fs fuel pk t id g o' fs' r : (forall x, number (rt x)) ->
  is_object o0 -> reaches o0 cs o fs -> lookup id (o_gps o) = Some g -> step (Output fuel pk t id) (o, fs) = Ok (o', fs', r) ->
  exists f, f_vtu fs' = (id, t, f) :: f_vtu fs /\
  exists np nc ps co os ty du db es ss et pl hd, piece f = Some (np, nc) /\
    data "Position" f = Some ps /\ data "connectivity" f = Some co /\ data "offsets" f = Some os /\ data "types" f = Some ty /\
    data "displ" f = Some du /\ data "b" f = Some db /\ data "strain" f = Some es /\ data "stress" f = Some ss /\
    data "elem_type" f = Some et /\ data "plasticity" f = Some pl /\ data "hardening" f = Some hd /\
    let w := map (spell rt) in
    xml (text rt f) = Some (events (vtu_doc (decimal np) (decimal nc) (if v_dim (o_env o) =? 2 then "3" else "6")
      (w ps) (w co) (w os) (w ty) (w du) (w db) (w es) (w ss) (w et) (w pl) (w hd))).
Proof.
  intros Hr O R L E. destruct (output_step o0 cs o fs fuel pk t id g o' fs' r O R L E) as ((vo & u & w & nl & it & er & _ & _ & _ & Ev & _) & f & Ef & ->).
  exists f. split; [reflexivity|]. destruct (reach_inv o0 cs o fs O R) as (K & _). pose proof (ok_sane o K) as Sa.
  rewrite <- Ev. apply (vtu_xml rt Hr o' f Ef). rewrite Ev. destruct (sa_dim _ Sa) as [(D & _)|(D & _)]; [now left|now right].
Qed.
(** what is read back from an int *)
Lemma decimal_back z : NilZero.int_of_string (decimal z) = Some (Z.to_int z).
Proof.
  unfold decimal. apply NilZero.isi; intros E; pose proof (DecimalZ.of_to z) as B; rewrite E in B; cbn in B; subst z; discriminate.
Qed.
Lemma decimal_inj a b : decimal a = decimal b -> a = b.
Proof. intros E. pose proof (decimal_back a) as A. rewrite E, decimal_back in A. injection A as A. rewrite <- (DecimalZ.of_to a), <- (DecimalZ.of_to b), A. reflexivity. Qed.

(** the reader at work *)
Definition q34 (s : string) : string := (quote ++ s ++ quote)%string.
Lemma reader_accepts : xml (declaration ++ "<a x=" ++ q34 "1" ++ ">" ++ "12 -3<b></b>4</a> ")%string = Some (events (El "a" [("x", "1")] [Wd "12"; Wd "-3"; El "b" [] []; Wd "4"])).
Proof. reflexivity. Qed.
Lemma reader_rejects : xml "<a></a>" = None /\ xml (declaration ++ "<a>")%string = None /\ xml (declaration ++ "<a></b>")%string = None /\ xml (declaration ++ "<a></a><b></b>")%string = None /\
  xml (declaration ++ "<a></a>1")%string = None /\ xml (declaration ++ "<a x=" ++ q34 "1" ++ " x=" ++ q34 "2" ++ "></a>")%string = None /\ xml (declaration ++ "<a><b></a></b>")%string = None /\
  xml (declaration ++ "<a x=1></a>")%string = None /\ xml (declaration ++ "<a>1 & 2</a>")%string = None.
Proof. repeat split. Qed.

(** ** What the reader accepts is one element, its tags nested *)
Definition frame : Type := string * list (string * string) * list node.
Fixpoint opened (fs : list frame) : list event :=
  match fs with [] => [] | (n, l, ks) :: fs => opened fs ++ Start n l :: flat_map events ks end.
Definition fname (f : frame) : string := fst (fst f).
(** the tags read so far: an unfinished tree whose open elements are k *)
Definition shape (s : xst) (e : list event) : Prop :=
  let '(m, k, r) := s in
  (k = [] -> match m with Txt w => w = "" | Lt | Cl _ => True | _ => r = false end) /\
  ((k = [] /\ r = false /\ e = []) \/ (k = [] /\ r = true /\ exists n l ks, e = events (El n l ks)) \/
   (k <> [] /\ r = true /\ exists fs, map fname fs = k /\ e = opened fs)).
Lemma shape_add m m' k r e : (k = [] -> match m' with Txt w => w = "" | Lt | Cl _ => True | _ => r = false end) -> shape (m, k, r) e -> shape (m', k, r) e.
Proof. intros H (_ & S). now split. Qed.
Lemma shape_flush m' w k r e : (k = [] -> match m' with Txt w => w = "" | Lt | Cl _ => True | _ => r = false end) -> shape (Txt w, k, r) e -> shape (m', k, r) (e ++ flush w).
Proof.
  intros H (A & S). split; [exact H|]. destruct k as [|x k].
  - rewrite (A eq_refl). cbn. rewrite app_nil_r. exact S.
  - destruct S as [(K & _)|[(K & _)|(_ & R & fs & F & ->)]]; [discriminate|discriminate|]. right. right. split; [discriminate|]. split; [exact R|].
    unfold flush. destruct (String.eqb w ""); [exists fs; now rewrite app_nil_r|]. destruct fs as [|((n, l), ks) fs]; [discriminate|].
    exists ((n, l, ks ++ [Wd w]) :: fs). split; [exact F|]. cbn [opened]. rewrite flat_map_app, <- app_assoc. reflexivity.
Qed.
Lemma shape_open m n l k r e : match m with Nm _ | Tg _ _ | Ax _ _ => True | _ => False end -> shape (m, k, r) e -> shape (Txt "", n :: k, true) (e ++ [Start n l]).
Proof.
  intros M (A & S). split; [discriminate|]. right. right. split; [discriminate|]. split; [reflexivity|].
  destruct S as [(-> & -> & ->)|[(-> & -> & _)|(K & _ & fs & F & ->)]].
  - exists [(n, l, [])]. split; reflexivity.
  - specialize (A eq_refl). destruct m; (discriminate || contradiction).
  - exists ((n, l, []) :: fs). cbn. now rewrite F.
Qed.
Lemma shape_close m n k r e : shape (m, n :: k, r) e -> shape (Txt "", k, r) (e ++ [End n]).
Proof.
  intros (A & S). split; [reflexivity|]. destruct S as [(K & _)|[(K & _)|(_ & R & fs & F & ->)]]; [discriminate|discriminate|]. destruct fs as [|((n', l), ks) fs]; [discriminate|].
  cbn in F. injection F as -> F. cbn [opened]. rewrite <- app_assoc. cbn [app]. destruct fs as [|((n2, l2), ks2) fs].
  - right. left. cbn in F. subst k. split; [reflexivity|]. split; [exact R|]. exists n, l, ks. reflexivity.
  - right. right. split; [subst k; discriminate|]. split; [exact R|]. exists ((n2, l2, ks2 ++ [El n l ks]) :: fs). split; [exact F|].
    cbn [opened]. rewrite flat_map_app, <- app_assoc. cbn [flat_map events app]. rewrite app_nil_r. reflexivity.
Qed.
Lemma shape_step c s s' e e' : xstep c s = Some (s', e') -> shape s e -> shape s' (e ++ e').
Proof.
  destruct s as ((m, k), r). intros H S. pose proof S as (A & _).
  destruct m; cbn [xstep] in H;
    repeat match type of H with
    | (if ?b then _ else _) = _ => destruct b eqn:?
    | match ?k with [] => _ | _ :: _ => _ end = _ => destruct k eqn:?
    | match ?r with true => _ | false => _ end = _ => destruct r eqn:?
    end; try discriminate; unfold open_tag in H; injection H as <- <-;
    try (apply shape_flush; [easy|exact S]);
    try (eapply shape_open; [|exact S]; exact I);
    try (rewrite app_nil_r; eapply shape_add; [|exact S]; (easy || exact A)).
  match goal with E : String.eqb _ _ = true |- _ => apply String.eqb_eq in E; subst end. eapply shape_close. exact S.
Qed.
Lemma shape_scan t s s' e e' : scan t s = Some (s', e') -> shape s e -> shape s' (e ++ e').
Proof.
  revert s e e'. induction t as [|c t IH]; intros s e e' H S.
  - injection H as <- <-. now rewrite app_nil_r.
  - cbn [scan] in H. destruct (xstep c s) as [(s1, e1)|] eqn:E; [|discriminate]. destruct (scan t s1) as [(s2, e2)|] eqn:E2; [|discriminate]. injection H as <- <-.
    rewrite app_assoc. eapply IH; [exact E2|]. eapply shape_step; [exact E|exact S].
Qed.
Theorem reader_sound t e : xml t = Some e -> exists name attrs kids, e = events (El name attrs kids).
Proof.
  unfold xml. destruct (prefix declaration t); [|discriminate]. destruct (scan _ _) as [(s, e1)|] eqn:E; [|discriminate].
  intros H. assert (S0 : shape (Txt "", [], false) []) by (split; [reflexivity|left; repeat split]).
  pose proof (shape_scan _ _ _ _ _ E S0) as S. destruct s as ((m, k), r). destruct m as [w| | | | | | | |]; try discriminate. destruct w; [|discriminate]. destruct k; [|discriminate].
  destruct r; [|discriminate]. injection H as <-. destruct S as (_ & [(_ & X & _)|[(_ & _ & X)|(X & _)]]); [discriminate|exact X|congruence].
Qed.
Lemma some_number : number "-1.5e-10".
Proof. split; [discriminate|reflexivity]. Qed.
