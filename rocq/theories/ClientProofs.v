(** Proofs about names, paths and routes. *)
From Coq Require Import ZArith String Ascii Bool Lia.
From stdpp Require Import base list numbers strings pretty gmap.
From Verif Require Import CodecModel JsonModel JsonSpec ClientModel ClientSpec.

Local Open Scope string_scope.
Local Open Scope Z_scope.

Lemma text_eqb_spec a b : reflect (a = b) (text_eqb a b).
Proof. unfold text_eqb. destruct (decide (a = b)) as [->|N]; [rewrite bool_decide_eq_true_2 by reflexivity; constructor; reflexivity|rewrite bool_decide_eq_false_2 by exact N; constructor; exact N]. Qed.

(** * Escaping *)

Definition all_ascii : list ascii := map Ascii.ascii_of_nat (seq 0 256).
Lemma all_ascii_in c : In c all_ascii.
Proof.
  unfold all_ascii. rewrite <- (Ascii.ascii_nat_embedding c). apply in_map. apply in_seq. pose proof (Ascii.nat_ascii_bounded c). lia.
Qed.
Lemma escape_path_char c r : unescape false (escape_char keep_path false c ++ r)%list = match unescape false r with Some x => Some (c :: x) | None => None end.
Proof.
  assert (D : forallb (fun c => if keep_path c then negb (Ascii.eqb c "%") else
     match unhex (upper_hex (Nat.div (code c) 16)), unhex (upper_hex (Nat.modulo (code c) 16)) with Some a, Some b => Ascii.eqb (Ascii.ascii_of_nat (16 * a + b)) c | _, _ => false end) all_ascii = true) by (vm_compute; reflexivity).
  rewrite forallb_forall in D. specialize (D c (all_ascii_in c)). unfold escape_char. destruct (keep_path c).
  - cbn [app unescape]. destruct (Ascii.eqb c "%"); [discriminate|]. reflexivity.
  - cbn [andb]. cbn [app unescape]. change (Ascii.eqb "%" "%") with true. cbv iota.
    destruct (unhex (upper_hex (Nat.div (code c) 16))) as [a|]; [|discriminate]. destruct (unhex (upper_hex (Nat.modulo (code c) 16))) as [b|]; [|discriminate].
    apply Ascii.eqb_eq in D. rewrite D. reflexivity.
Qed.
Lemma path_roundtrip s : unescape false (escape keep_path false s) = Some s.
Proof.
  induction s as [|c s IH]; [reflexivity|]. unfold escape. cbn [flat_map]. rewrite escape_path_char. unfold escape in IH. rewrite IH. reflexivity.
Qed.
Lemma escape_query_char c r : unescape true (escape_char keep_query true c ++ r)%list = match unescape true r with Some x => Some (c :: x) | None => None end.
Proof.
  assert (D : forallb (fun c => if keep_query c then negb (Ascii.eqb c "%") && negb (Ascii.eqb c "+") else
     match unhex (upper_hex (Nat.div (code c) 16)), unhex (upper_hex (Nat.modulo (code c) 16)) with Some a, Some b => Ascii.eqb (Ascii.ascii_of_nat (16 * a + b)) c | _, _ => false end) all_ascii = true) by (vm_compute; reflexivity).
  rewrite forallb_forall in D. specialize (D c (all_ascii_in c)). unfold escape_char. destruct (keep_query c).
  - cbn [app unescape]. destruct (Ascii.eqb c "%"); [discriminate|]. destruct (Ascii.eqb c "+"); [discriminate|]. reflexivity.
  - cbn [andb]. destruct (Ascii.eqb_spec c " ") as [->|N].
    + cbn [app unescape]. change (Ascii.eqb "+" "%") with false. change (Ascii.eqb "+" "+") with true. reflexivity.
    + cbn [app unescape]. change (Ascii.eqb "%" "%") with true. cbv iota.
      destruct (unhex (upper_hex (Nat.div (code c) 16))) as [a|]; [|discriminate]. destruct (unhex (upper_hex (Nat.modulo (code c) 16))) as [b|]; [|discriminate].
      apply Ascii.eqb_eq in D. rewrite D. reflexivity.
Qed.
Lemma query_roundtrip s : unescape true (escape keep_query true s) = Some s.
Proof.
  induction s as [|c s IH]; [reflexivity|]. unfold escape. cbn [flat_map]. rewrite escape_query_char. unfold escape in IH. rewrite IH. reflexivity.
Qed.
Lemma arrives_serve m p q : arrives m p q = serve m q p.
Proof. unfold arrives. rewrite path_roundtrip. reflexivity. Qed.
Lemma query_of_id id : query_of id = if text_eqb id [] then None else Some id.
Proof. unfold query_of. rewrite query_roundtrip. reflexivity. Qed.

(** * Splitting *)

Lemma split_on_none sep s : forall acc, ~ In sep s -> split_on sep acc s = [(acc ++ s)%list].
Proof.
  induction s as [|c s IH]; intros acc N; cbn [split_on]; [rewrite app_nil_r; reflexivity|].
  destruct (Ascii.eqb_spec c sep) as [->|E]; [destruct N; left; reflexivity|]. rewrite IH by (intros H; apply N; right; exact H). rewrite <- app_assoc. reflexivity.
Qed.
Lemma split_on_sep sep s r : forall acc, ~ In sep s -> split_on sep acc (s ++ sep :: r)%list = (acc ++ s)%list :: split_on sep [] r.
Proof.
  induction s as [|c s IH]; intros acc N; cbn [split_on app].
  - rewrite Ascii.eqb_refl, app_nil_r. reflexivity.
  - destruct (Ascii.eqb_spec c sep) as [->|E]; [destruct N; left; reflexivity|]. rewrite IH by (intros H; apply N; right; exact H). rewrite <- app_assoc. reflexivity.
Qed.
Lemma split_none s : ~ In slash s -> split s = [s].
Proof. intros N. unfold split. rewrite split_on_none by exact N. reflexivity. Qed.
Lemma split_sep s r : ~ In slash s -> split (s ++ slash :: r)%list = s :: split r.
Proof. intros N. unfold split. rewrite split_on_sep by exact N. reflexivity. Qed.
Lemma split_cases s : (~ In slash s /\ split s = [s]) \/ exists a r, s = (a ++ slash :: r)%list /\ ~ In slash a /\ split s = a :: split r.
Proof.
  assert (H : forall s, In slash s -> exists a r, s = (a ++ slash :: r)%list /\ ~ In slash a).
  { clear s. induction s as [|c s IH]; intros I; [destruct I|]. destruct (Ascii.eqb_spec c slash) as [->|N].
    - exists [], s. split; [reflexivity|intros []].
    - destruct I as [I|I]; [congruence|]. destruct (IH I) as (a & r & -> & Na). exists (c :: a), r. split; [reflexivity|]. intros [E|E]; [congruence|exact (Na E)]. }
  destruct (in_dec Ascii.ascii_dec slash s) as [I|N].
  - right. destruct (H s I) as (a & r & -> & Na). exists a, r. split; [reflexivity|]. split; [exact Na|]. apply split_sep, Na.
  - left. split; [exact N|apply split_none, N].
Qed.
Lemma split_not_nil s : split s <> [].
Proof. destruct (split_cases s) as [[_ ->]|(a & r & _ & _ & ->)]; discriminate. Qed.
Lemma split_one s x : split s = [x] -> s = x /\ ~ In slash s.
Proof.
  destruct (split_cases s) as [[N ->]|(a & r & -> & _ & ->)].
  - intros [= ->]. split; [reflexivity|exact N].
  - intros [= _ E]. destruct (split_not_nil r E).
Qed.
Lemma split_two s x y : split s = [x; y] -> exists r, s = (x ++ slash :: r)%list /\ ~ In slash x /\ r = y /\ ~ In slash y.
Proof.
  destruct (split_cases s) as [[N ->]|(a & r & -> & Na & ->)]; [discriminate|]. intros [= -> E]. apply split_one in E as [-> Ny]. exists y. split_and!; auto.
Qed.

(** * Cleaning *)

Lemma clean_segs_good segs : forall stack, Forall good_name segs -> clean_segs stack segs = (rev stack ++ segs)%list.
Proof.
  induction segs as [|s segs IH]; intros stack F; [cbn [clean_segs]; rewrite app_nil_r; reflexivity|]. inversion F as [|? ? (N1 & N2 & N3 & N4) F']; subst. cbn [clean_segs].
  destruct (text_eqb_spec s []); [contradiction|]. destruct (text_eqb_spec s (t ".")); [contradiction|]. destruct (text_eqb_spec s (t "..")); [contradiction|]. cbn [orb].
  rewrite IH by exact F'. cbn [rev]. rewrite <- app_assoc. reflexivity.
Qed.
Lemma last_app_cons {A} (l : list A) x d : List.last (l ++ [x])%list d = x.
Proof. apply List.last_last. Qed.
Lemma last_in {A} (l : list A) d : l <> [] -> In (List.last l d) l.
Proof. intros N. rewrite (app_removelast_last d N) at 2. apply in_app_iff. right. left. reflexivity. Qed.
Lemma last_cons {A} (x : A) l d : l <> [] -> List.last (x :: l) d = List.last l d.
Proof. destruct l; [congruence|reflexivity]. Qed.
Lemma last_app2 {A} (l r : list A) d : r <> [] -> List.last (l ++ r)%list d = List.last r d.
Proof. intros N. induction l as [|x l IH]; [reflexivity|]. cbn [app]. rewrite last_cons; [exact IH|]. destruct l; [exact N|discriminate]. Qed.
Lemma show_cons s segs : show (s :: segs) = (slash :: s ++ (match segs with [] => [] | _ => show segs end))%list.
Proof. unfold show. cbn [flat_map app]. destruct segs; [reflexivity|reflexivity]. Qed.

(** Paths of good components. *)
Lemma split_show segs : Forall good_name segs -> segs <> [] -> split (List.tl (show segs)) = segs.
Proof.
  intros F. induction F as [|s segs (N1 & N2 & _) F IH]; intros N; [congruence|]. rewrite show_cons. cbn [List.tl].
  destruct segs as [|s2 segs]; [rewrite app_nil_r; apply split_none, N2|].
  specialize (IH ltac:(discriminate)). rewrite show_cons in *. cbn [List.tl] in IH. rewrite split_sep by exact N2. rewrite IH. reflexivity.
Qed.
Lemma show_last segs : Forall good_name segs -> segs <> [] -> Ascii.eqb (List.last (show segs) slash) slash = false.
Proof.
  intros F N. destruct (exists_last N) as (l & x & ->). apply Forall_app in F as [_ F]. inversion F as [|? ? (N1 & N2 & _) _]; subst.
  unfold show. destruct (l ++ [x])%list as [|y k] eqn:E; [destruct l; discriminate|]. rewrite <- E. rewrite flat_map_app. cbn [flat_map]. rewrite app_nil_r.
  rewrite last_app2 by discriminate. rewrite last_cons by exact N1.
  destruct (Ascii.eqb_spec (List.last x slash) slash) as [H|H]; [|reflexivity]. destruct N2. rewrite <- H. apply last_in, N1.
Qed.
Lemma clean_show segs : Forall good_name segs -> segs <> [] -> clean_path (show segs) = show segs.
Proof.
  intros F N. unfold clean_path. rewrite (split_show segs F N), (clean_segs_good segs [] F), (show_last segs F N). reflexivity.
Qed.
Lemma segments_show segs : Forall good_name segs -> segs <> [] -> segments (show segs) = (segs, false).
Proof.
  intros F N. unfold segments. rewrite (split_show segs F N). destruct (text_eqb_spec (List.last segs []) []) as [E|E]; [|reflexivity].
  exfalso. pose proof (last_in segs [] N) as I. rewrite E in I. rewrite List.Forall_forall in F. destruct (F [] I) as [H _]. congruence.
Qed.
Lemma serve_show m q segs : Forall good_name segs -> segs <> [] -> serve m q (show segs) = find_route routes false m q (show segs).
Proof. intros F N. unfold serve. rewrite (clean_show segs F N). destruct (text_eqb_spec (show segs) (show segs)); [reflexivity|congruence]. Qed.

Lemma good_jobs : good_name (t "jobs").
Proof. split_and!; [discriminate|cbn; intros H; repeat (destruct H as [H|H]; [discriminate|]); destruct H|discriminate|discriminate]. Qed.
Lemma good_ws : good_name (t "ws").
Proof. split_and!; [discriminate|cbn; intros H; repeat (destruct H as [H|H]; [discriminate|]); destruct H|discriminate|discriminate]. Qed.
Lemma good_namespaces : good_name (t "namespaces").
Proof. split_and!; [discriminate|cbn; intros H; repeat (destruct H as [H|H]; [discriminate|]); destruct H|discriminate|discriminate]. Qed.
Lemma delete_show id : delete_path id = show [t "jobs"; id].
Proof. unfold delete_path, show. cbn [flat_map]. rewrite app_nil_r. reflexivity. Qed.
Lemma watch_show id : watch_path id = show [t "jobs"; id; t "ws"].
Proof. unfold watch_path, show. cbn [flat_map]. rewrite app_nil_r. reflexivity. Qed.
Lemma create_show ns : create_path ns = show [t "jobs"; t "namespaces"; ns].
Proof. unfold create_path, show. cbn [flat_map]. rewrite app_nil_r. reflexivity. Qed.

Lemma find_route_cons r rs seen m q p : find_route (r :: rs) seen m q p =
  let '(segs, sl) := segments p in
  match match_segs (r_pat r) segs with
  | None => find_route rs seen m q p
  | Some vs =>
      match r_methods r with
      | [] => if Bool.eqb sl (r_slash r) then r_do r q vs else ARedirect (flip p sl)
      | ms => if existsb (method_eqb m) ms then (if Bool.eqb sl (r_slash r) then r_do r q vs else ARedirect (flip p sl)) else find_route rs true m q p
      end
  end.
Proof. reflexivity. Qed.
