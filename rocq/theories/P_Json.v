(** The JSON printer and the encodings of the records are injective. *)
From Coq Require Import ZArith Lia Bool ZifyBool List String Ascii.
From Verif Require Import GoTime UposathaMoon CalDay Text SpecText P_Time P_Text P_Date.
Import ListNotations.
Open Scope Z_scope.
Local Open Scope string_scope.

(** ** Strings *)
Definition hex_value (c : ascii) : nat := let n := nat_of_ascii c in if Nat.ltb n 58 then n - 48 else n - 87.
Definition unescape (s : string) : option (ascii * string) :=
  match s with
  | "" => None
  | String c s' =>
      if Ascii.eqb c quote then None
      else if Ascii.eqb c "\" then
        match s' with
        | String e t =>
            if Ascii.eqb e quote then Some (quote, t) else if Ascii.eqb e "\" then Some ("\"%char, t)
            else if Ascii.eqb e "n" then Some (ascii_of_nat 10, t) else if Ascii.eqb e "r" then Some (ascii_of_nat 13, t)
            else if Ascii.eqb e "t" then Some (ascii_of_nat 9, t)
            else match t with
                 | String _ (String _ (String h (String l t'))) => Some (ascii_of_nat (16 * hex_value h + hex_value l), t')
                 | _ => None
                 end
        | "" => None
        end
      else Some (c, s')
  end.
Lemma unescape_char c r : unescape (escape_char c ++ r) = Some (c, r).
Proof. destruct c as [b0 b1 b2 b3 b4 b5 b6 b7]. destruct b0, b1, b2, b3, b4, b5, b6, b7; reflexivity. Qed.
Lemma escape_char_head c r s : escape_char c ++ r <> String quote s.
Proof. intros E. apply (f_equal unescape) in E. rewrite unescape_char in E. discriminate. Qed.
Lemma escape_split s : forall s' r r', escape s ++ String quote r = escape s' ++ String quote r' -> s = s' /\ r = r'.
Proof.
  induction s as [|c s IH]; intros [|c' s'] r r'; cbn [escape append]; rewrite ?app_assoc'; intros E.
  - injection E as ->. auto.
  - symmetry in E. elim (escape_char_head _ _ _ E).
  - elim (escape_char_head _ _ _ E).
  - pose proof (f_equal unescape E) as U. rewrite !unescape_char in U. injection U as <- U. destruct (IH _ _ _ U) as [-> ->]. auto.
Qed.
Lemma print_string_split s s' r r' : print_string s ++ r = print_string s' ++ r' -> s = s' /\ r = r'.
Proof. unfold print_string. cbn [append]. rewrite !app_assoc'. cbn [append]. intros E. injection E as E. exact (escape_split _ _ _ _ E). Qed.

(** ** Values *)
Section Ind.
Variable P : json -> Prop.
Hypothesis Hi : forall z, P (JInt z).
Hypothesis Hb : forall b, P (JBool b).
Hypothesis Hs : forall s, P (JStr s).
Hypothesis Ha : forall l, Forall P l -> P (JArr l).
Hypothesis Ho : forall l, Forall (fun p => P (snd p)) l -> P (JObj l).
Fixpoint json_ind' (j : json) : P j :=
  match j with
  | JInt z => Hi z | JBool b => Hb b | JStr s => Hs s
  | JArr l => Ha l ((fix go (l : list json) : Forall P l :=
      match l with [] => Forall_nil _ | x :: l' => Forall_cons x (json_ind' x) (go l') end) l)
  | JObj l => Ho l ((fix go (l : list (string * json)) : Forall (fun p => P (snd p)) l :=
      match l with [] => Forall_nil _ | x :: l' => Forall_cons x (json_ind' (snd x)) (go l') end) l)
  end.
End Ind.
Definition print_pair (p : string * json) : string := print_string (fst p) ++ ":" ++ print_json (snd p).
Lemma print_arr l : print_json (JArr l) = "[" ++ String.concat "," (map print_json l) ++ "]".
Proof.
  cbn [print_json]. f_equal. f_equal. induction l as [|x l IH]; [reflexivity|]. destruct l as [|y l]; [reflexivity|].
  change (String.concat "," (map print_json (x :: y :: l))) with (print_json x ++ "," ++ String.concat "," (map print_json (y :: l))).
  rewrite <- IH. reflexivity.
Qed.
Lemma print_obj l : print_json (JObj l) = "{" ++ String.concat "," (map print_pair l) ++ "}".
Proof.
  cbn [print_json]. f_equal. f_equal. induction l as [|[k x] l IH]; [reflexivity|]. destruct l as [|y l]; [reflexivity|].
  change (String.concat "," (map print_pair ((k, x) :: y :: l))) with (print_pair (k, x) ++ "," ++ String.concat "," (map print_pair (y :: l))).
  rewrite <- IH. unfold print_pair. cbn [fst snd]. rewrite !app_assoc'. destruct y. reflexivity.
Qed.

(** What may follow a value. *)
Definition ends (r : string) : Prop :=
  match r with "" => True | String c _ => c = ","%char \/ c = "]"%char \/ c = "}"%char end.
Lemma ends_stops r : ends r -> stops num_char r.
Proof. destruct r as [|c r]; [trivial|]. cbn. intros [->|[->| ->]]; reflexivity. Qed.
Definition splits {A} (f : A -> string) (x : A) : Prop :=
  forall x' r r', ends r -> ends r' -> f x ++ r = f x' ++ r' -> x = x' /\ r = r'.

Lemma concat_split {A} (f : A -> string) (e : ascii) (Ee : e = "]"%char \/ e = "}"%char)
  (Hh : forall x, exists c s, f x = String c s /\ c <> e) l : Forall (splits f) l ->
  forall l' r r', String.concat "," (map f l) ++ String e r = String.concat "," (map f l') ++ String e r' -> l = l' /\ r = r'.
Proof.
  assert (Se : forall r, ends (String e r)) by (intros r; cbn; tauto).
  assert (Ne : e <> ","%char) by (destruct Ee as [->| ->]; discriminate).
  induction 1 as [|x l Hx Hl IH]; intros [|x' l'] r r' E.
  - cbn in E. injection E as ->. auto.
  - destruct (Hh x') as (c & s & Ec & Nc). destruct l' as [|y' l']; cbn [map String.concat append] in E; rewrite Ec in E; cbn [append] in E; injection E as E _; congruence.
  - destruct (Hh x) as (c & s & Ec & Nc). destruct l as [|y l]; cbn [map String.concat append] in E; rewrite Ec in E; cbn [append] in E; injection E as E _; congruence.
  - assert (C : forall z m q, String.concat "," (map f (z :: m)) ++ q = f z ++ match m with [] => q | _ => "," ++ String.concat "," (map f m) ++ q end).
    { intros z [|z' m] q; [reflexivity|]. cbn [map String.concat]. rewrite !app_assoc'. reflexivity. }
    rewrite !C in E. clear C. apply Hx in E; [|destruct l; [apply Se|cbn; tauto]|destruct l'; [apply Se|cbn; tauto]]. destruct E as [-> E'].
    destruct l as [|y l], l' as [|y' l'].
    + injection E' as ->. auto.
    + injection E' as E' _. congruence.
    + injection E' as E' _. congruence.
    + apply (app_cancel ",") in E'. destruct (IH _ _ _ E') as [-> ->]. auto.
Qed.
Lemma print_head j : exists c s, print_json j = String c s /\ c <> "]"%char.
Proof.
  destruct j as [z|[|]|s|l|l].
  - cbn [print_json]. destruct (fmt_d_nonempty z) as (c & s & -> & H). exists c, s. split; [reflexivity|]. intros ->. discriminate H.
  - exists "t"%char. eexists. split; [reflexivity|discriminate].
  - exists "f"%char. eexists. split; [reflexivity|discriminate].
  - exists quote. eexists. split; [reflexivity|discriminate].
  - exists "["%char. eexists. split; [reflexivity|discriminate].
  - exists "{"%char. eexists. split; [reflexivity|discriminate].
Qed.
Lemma pair_head p : exists c s, print_pair p = String c s /\ c <> "}"%char.
Proof. exists quote. eexists. split; [reflexivity|discriminate]. Qed.
Definition kind (c : ascii) : nat :=
  if num_char c then 0 else if Ascii.eqb c "t" then 1 else if Ascii.eqb c "f" then 2 else if Ascii.eqb c quote then 3 else if Ascii.eqb c "[" then 4 else 5.
Lemma print_kind j : exists c s, print_json j = String c s /\
  kind c = match j with JInt _ => 0 | JBool true => 1 | JBool false => 2 | JStr _ => 3 | JArr _ => 4 | JObj _ => 5 end%nat.
Proof.
  destruct j as [z|[|]|s|l|l].
  - cbn [print_json]. destruct (fmt_d_nonempty z) as (c & s & -> & H). exists c, s. split; [reflexivity|]. unfold kind. rewrite H. reflexivity.
  - exists "t"%char. eexists. split; reflexivity.
  - exists "f"%char. eexists. split; reflexivity.
  - exists quote. eexists. split; reflexivity.
  - exists "["%char. eexists. split; reflexivity.
  - exists "{"%char. eexists. split; reflexivity.
Qed.
Lemma print_split j : splits print_json j.
Proof.
  induction j as [z|b|s|l IH|l IH] using json_ind'; intros j' r r' Hr Hr' E;
    match type of E with print_json ?j ++ _ = _ => destruct (print_kind j) as (c & t & Ec & Kc) end;
    destruct (print_kind j') as (c' & t' & Ec' & Kc');
    assert (K : kind c = kind c') by (rewrite Ec, Ec' in E; cbn [append] in E; injection E as -> _; reflexivity);
    rewrite Kc, Kc' in K; clear c t Ec Kc c' t' Ec' Kc'.
  - destruct j' as [z'|[|]|s'|l'|l']; try discriminate K. cbn [print_json] in E.
    destruct (fmt_d_split z z' r r' (ends_stops r Hr) (ends_stops r' Hr') E) as [-> ->]. auto.
  - destruct b, j' as [z'|[|]|s'|l'|l']; try discriminate K; cbn in E; injection E as ->; auto.
  - destruct j' as [z'|[|]|s'|l'|l']; try discriminate K. cbn [print_json] in E. destruct (print_string_split _ _ _ _ E) as [-> ->]. auto.
  - destruct j' as [z'|[|]|s'|l'|l']; try discriminate K. rewrite !print_arr in E. rewrite !app_assoc' in E. cbn [append] in E. injection E as E.
    destruct (concat_split print_json "]" (or_introl eq_refl) print_head l IH l' r r' E) as [-> ->]. auto.
  - destruct j' as [z'|[|]|s'|l'|l']; try discriminate K. rewrite !print_obj in E. rewrite !app_assoc' in E. cbn [append] in E. injection E as E.
    assert (IH' : Forall (splits print_pair) l).
    { eapply Forall_impl; [|exact IH]. intros [k x] Hx [k' x'] q q' Hq Hq' Eq. unfold print_pair in Eq. cbn [fst snd] in *. rewrite !app_assoc' in Eq.
      destruct (print_string_split _ _ _ _ Eq) as [-> Eq']. cbn [append] in Eq'. injection Eq' as Eq'. destruct (Hx x' q q' Hq Hq' Eq') as [-> ->]. auto. }
    destruct (concat_split print_pair "}" (or_intror eq_refl) pair_head l IH' l' r r' E) as [-> ->]. auto.
Qed.
Lemma print_json_inj j j' : print_json j = print_json j' -> j = j'.
Proof. intros E. apply (print_split j j' "" "" I I). rewrite !app_nil. exact E. Qed.

(** ** Times *)
Lemma digit_inj a b : 0 <= a <= 9 -> 0 <= b <= 9 -> digit a = digit b -> a = b.
Proof. intros Ha Hb E. apply (f_equal digit_value) in E. rewrite (proj1 (digit_cases a Ha)), (proj1 (digit_cases b Hb)) in E. exact E. Qed.
Lemma digits_length n : forall z, String.length (digits n z) = n.
Proof. induction n as [|n IH]; intros z; [reflexivity|]. cbn [digits]. rewrite string_length_app, IH. cbn. lia. Qed.
Lemma digits_inj n : forall a b, 0 <= a < 10 ^ Z.of_nat n -> 0 <= b < 10 ^ Z.of_nat n -> digits n a = digits n b -> a = b.
Proof.
  induction n as [|n IH]; intros a b Ha Hb E; [cbn in Ha, Hb; lia|]. cbn [digits] in E.
  assert (L : String.length (digits n (a / 10)) = String.length (digits n (b / 10))) by (rewrite !digits_length; reflexivity).
  destruct (app_inj_length _ _ _ _ L E) as [E1 E2]. injection E2 as E2.
  rewrite Nat2Z.inj_succ, Z.pow_succ_r in Ha, Hb by lia.
  assert (Da : 0 <= a / 10 < 10 ^ Z.of_nat n) by (split; [apply Z.div_pos; lia|apply Z.div_lt_upper_bound; lia]).
  assert (Db : 0 <= b / 10 < 10 ^ Z.of_nat n) by (split; [apply Z.div_pos; lia|apply Z.div_lt_upper_bound; lia]).
  apply (IH _ _ Da Db) in E1. apply digit_inj in E2; [|pose proof (Z.mod_pos_bound a 10); lia|pose proof (Z.mod_pos_bound b 10); lia].
  rewrite (Z_div_mod_eq_full a 10), (Z_div_mod_eq_full b 10), E1, E2. reflexivity.
Qed.
Lemma trim_spec s : s = trim_zeros s ++ zeros (String.length s - String.length (trim_zeros s)) /\ (String.length (trim_zeros s) <= String.length s)%nat.
Proof.
  induction s as [|c s [IH L]]; [split; [reflexivity|cbn; lia]|]. cbn [trim_zeros]. destruct (trim_zeros s) as [|d t] eqn:T.
  - destruct (Ascii.eqb_spec c "0") as [->|N].
    + split; [|cbn; lia]. cbn [String.length] in *. rewrite Nat.sub_0_r in IH. cbn [append] in IH. change (S (String.length s) - 0)%nat with (S (String.length s)). cbn [zeros append]. rewrite <- IH. reflexivity.
    + split; [|cbn; lia]. cbn [String.length append] in *. rewrite IH at 1. f_equal; f_equal; lia.
  - split; [|cbn [String.length] in *; lia]. cbn [String.length append Nat.sub] in *. rewrite IH at 1. reflexivity.
Qed.
Lemma trim_inj a b : String.length a = String.length b -> trim_zeros a = trim_zeros b -> a = b.
Proof. intros L E. rewrite (proj1 (trim_spec a)), (proj1 (trim_spec b)), L, E. reflexivity. Qed.
Lemma fraction_inj a b : 0 <= a < second_ns -> 0 <= b < second_ns -> fraction a = fraction b -> a = b.
Proof.
  intros Ha Hb E. unfold fraction in E. apply (digits_inj 9); [exact Ha|exact Hb|].
  apply trim_inj; [rewrite !digits_length; reflexivity|].
  destruct (trim_zeros (digits 9 a)), (trim_zeros (digits 9 b)); try reflexivity; try discriminate E. cbn [append] in E. injection E as -> ->. reflexivity.
Qed.
Lemma clock_split a b : 0 <= a < day_ns -> 0 <= b < day_ns -> clock_string a ++ "Z" = clock_string b ++ "Z" -> a = b.
Proof.
  intros Ha Hb E. unfold clock_string in E. rewrite !app_assoc' in E. unfold day_ns in *.
  set (s := a / second_ns) in *. set (s' := b / second_ns) in *.
  assert (Hs : 0 <= s < 86400) by (unfold s, second_ns; split; [apply Z.div_pos; lia|apply Z.div_lt_upper_bound; lia]).
  assert (Hs' : 0 <= s' < 86400) by (unfold s', second_ns; split; [apply Z.div_pos; lia|apply Z.div_lt_upper_bound; lia]).
  destruct (app_inj_length (two (s / 3600)) (two (s' / 3600)) _ _ eq_refl E) as [E1 E']. apply (app_cancel ":") in E'.
  destruct (app_inj_length (two (s / 60 mod 60)) (two (s' / 60 mod 60)) _ _ eq_refl E') as [E2 E'']. apply (app_cancel ":") in E''.
  destruct (app_inj_length (two (s mod 60)) (two (s' mod 60)) _ _ eq_refl E'') as [E3 E4].
  apply two_inj in E1; [|lia..]. apply two_inj in E2; [|lia..]. apply two_inj in E3; [|lia..].
  assert (F : fraction (a mod second_ns) = fraction (b mod second_ns)).
  { pose proof (f_equal String.length E4) as L. rewrite !string_length_app in L. cbn [String.length] in L.
    apply (app_inj_length (fraction (a mod second_ns)) (fraction (b mod second_ns)) "Z" "Z"); [lia|exact E4]. }
  apply fraction_inj in F; [|apply Z.mod_pos_bound; reflexivity..].
  assert (Es : s = s').
  { pose proof (Z_div_mod_eq_full s 60). pose proof (Z_div_mod_eq_full s' 60). pose proof (Z_div_mod_eq_full (s / 60) 60). pose proof (Z_div_mod_eq_full (s' / 60) 60).
    rewrite !Z.div_div in * by lia. change (60 * 60) with 3600 in *. lia. }
  rewrite (Z_div_mod_eq_full a second_ns), (Z_div_mod_eq_full b second_ns). fold s s'. rewrite F, Es. reflexivity.
Qed.
Lemma format_date_length t : String.length (format_date t) = 10%nat.
Proof. reflexivity. Qed.
Lemma mday_range n : 1 <= mday_of_day n <= 31.
Proof.
  pose proof (mday_of_day_spec n) as [H1 H2]. pose proof (month_of_day_range n) as Hm. split; [exact H1|].
  pose proof (days_in_length (year_of_day n) (month_of_day n) Hm) as D. unfold days_in in D. rewrite D in H2.
  pose proof (month_length_31 (is_leap (year_of_day n)) (month_of_day n) Hm). lia.
Qed.
Lemma format_date_inj t t' : 0 <= time_year t <= 9999 -> 0 <= time_year t' <= 9999 -> format_date t = format_date t' -> local_day t = local_day t'.
Proof.
  intros Hy Hy' E. unfold format_date in E.
  destruct (app_inj_length (four (time_year t)) (four (time_year t')) _ _ eq_refl E) as [E1 E']. apply (app_cancel "-") in E'.
  destruct (app_inj_length (two (time_month t)) (two (time_month t')) _ _ eq_refl E') as [E2 E'']. apply (app_cancel "-") in E''.
  assert (Mm : forall x, 0 <= time_month x < 100) by (intros x; unfold time_month; pose proof (month_of_day_range (local_day x)); lia).
  assert (Md : forall x, 0 <= time_mday x < 100) by (intros x; unfold time_mday; pose proof (mday_range (local_day x)); lia).
  apply four_inj in E1; [|lia..]. apply two_inj in E2; [|apply Mm..].
  apply two_inj in E''; [|apply Md..].
  rewrite <- (day_number_civil (local_day t)), <- (day_number_civil (local_day t')).
  unfold time_year, time_month, time_mday in E1, E2, E''. rewrite E1, E2, E''. reflexivity.
Qed.
Lemma clock_range t : 0 <= clock_ns t < day_ns.
Proof. apply Z.mod_pos_bound. reflexivity. Qed.
Lemma json_time_inj t t' j : t_off t = 0 -> t_off t' = 0 -> json_time t = Some j -> json_time t' = Some j -> t = t'.
Proof.
  unfold json_time. intros O O'. destruct ((0 <=? time_year t) && (time_year t <=? 9999))%Z eqn:Y; [|discriminate].
  destruct ((0 <=? time_year t') && (time_year t' <=? 9999))%Z eqn:Y'; [|discriminate]. intros E E'.
  assert (S : format_date t ++ "T" ++ clock_string (clock_ns t) ++ "Z" = format_date t' ++ "T" ++ clock_string (clock_ns t') ++ "Z") by congruence.
  clear E E'. apply app_inj_length in S; [|rewrite !format_date_length; reflexivity]. destruct S as [S1 S2]. apply (app_cancel "T") in S2.
  apply format_date_inj in S1; [|lia..]. apply clock_split in S2; [|apply clock_range..].
  destruct t as [n o], t' as [n' o']. unfold local_day, clock_ns, local_ns in S1, S2. cbn [t_ns t_off] in *. subst o o'. f_equal.
  rewrite !Z.add_0_r in S1, S2. rewrite (Z_div_mod_eq_full n day_ns), (Z_div_mod_eq_full n' day_ns), S1, S2. reflexivity.
Qed.

(** ** Records *)
Lemma all_some_inj {A B} (f : A -> option B) l : forall l' ys, (forall x x' y, In x l -> In x' l' -> f x = Some y -> f x' = Some y -> x = x') ->
  all_some (map f l) = Some ys -> all_some (map f l') = Some ys -> l = l'.
Proof.
  induction l as [|x l IH]; intros [|x' l'] ys H; cbn [map all_some].
  - reflexivity.
  - intros E. injection E as <-. destruct (f x') as [y|]; [|discriminate]. destruct (all_some (map f l')); discriminate.
  - intros E E'. injection E' as <-. destruct (f x) as [y|]; [|discriminate]. destruct (all_some (map f l)); discriminate.
  - destruct (f x) as [y|] eqn:F; [|discriminate]. destruct (f x') as [y'|] eqn:F'; [|discriminate].
    destruct (all_some (map f l)) as [zs|] eqn:G; [|discriminate]. destruct (all_some (map f l')) as [zs'|] eqn:G'; [|discriminate].
    cbn [option_map]. intros E E'. assert (Y : y = y') by congruence. assert (Z : zs = zs') by congruence. subst y' zs'. f_equal.
    + apply (H x x' y); [left; reflexivity|left; reflexivity|exact F|exact F'].
    + apply (IH l' zs); [intros a a' b Ha Ha'; apply H; right; assumption|reflexivity|exact G'].
Qed.
Lemma json_list_inj {A} (f : A -> option json) l l' j : (forall x x' y, In x l -> In x' l' -> f x = Some y -> f x' = Some y -> x = x') ->
  json_list f l = Some j -> json_list f l' = Some j -> l = l'.
Proof.
  unfold json_list. intros H E E'. destruct (all_some (map f l)) as [ys|] eqn:F; [|discriminate]. destruct (all_some (map f l')) as [ys'|] eqn:F'; [|discriminate].
  cbn [option_map] in E, E'. assert (ys = ys') by congruence. subst ys'. exact (all_some_inj f l l' ys H F F').
Qed.
Lemma json_uposatha_inj u u' j : t_off (u_Date u) = 0 -> t_off (u_Date u') = 0 -> json_uposatha u = Some j -> json_uposatha u' = Some j -> u = u'.
Proof.
  unfold json_uposatha. intros O O'. destruct (json_time (u_Date u)) as [t|] eqn:T; [|discriminate]. destruct (json_time (u_Date u')) as [t'|] eqn:T'; [|discriminate].
  cbn [option_map]. intros E E'. rewrite <- E in E'. clear E j. injection E' as H0 H1 H2 H3 H4 H5 H6 H7 H8 H9 H10 H11 H12 H13 H14. subst t'.
  pose proof (json_time_inj _ _ _ O O' T T') as D. clear T T' O O'. destruct u as [x0 x1 x2 x3 x4 x5 x6 x7 x8 x9 x10 x11 x12 x13 x14], u' as [y0 y1 y2 y3 y4 y5 y6 y7 y8 y9 y10 y11 y12 y13 y14]. cbn [u_Date u_Calendar u_Status u_Phase u_Event u_S_Number u_S_Total u_U_Days u_M_Days u_LunarMonth u_LunarSeason u_LunarYear u_HasAdhikavara u_Source u_Comments] in *. subst. reflexivity.
Qed.
Lemma json_half_inj u u' j : t_off (h_Date u) = 0 -> t_off (h_Date u') = 0 -> json_half u = Some j -> json_half u' = Some j -> u = u'.
Proof.
  unfold json_half. intros O O'. destruct (json_time (h_Date u)) as [t|] eqn:T; [|discriminate]. destruct (json_time (h_Date u')) as [t'|] eqn:T'; [|discriminate].
  cbn [option_map]. intros E E'. rewrite <- E in E'. clear E j. injection E' as H0 H1. subst t'.
  pose proof (json_time_inj _ _ _ O O' T T') as D. clear T T' O O'. destruct u as [x0 x1], u' as [y0 y1]. cbn [h_Date h_Phase] in *. subst. reflexivity.
Qed.
Lemma json_astro_inj u u' j : t_off (a_Date u) = 0 -> t_off (a_Date u') = 0 -> json_astro u = Some j -> json_astro u' = Some j -> u = u'.
Proof.
  unfold json_astro. intros O O'. destruct (json_time (a_Date u)) as [t|] eqn:T; [|discriminate]. destruct (json_time (a_Date u')) as [t'|] eqn:T'; [|discriminate].
  cbn [option_map]. intros E E'. rewrite <- E in E'. clear E j. injection E' as H0 H1. subst t'.
  pose proof (json_time_inj _ _ _ O O' T T') as D. clear T T' O O'. destruct u as [x0 x1], u' as [y0 y1]. cbn [a_Date a_Phase] in *. subst. reflexivity.
Qed.
Lemma json_event_inj u u' j : t_off (e_Date u) = 0 -> t_off (e_Date u') = 0 -> json_event u = Some j -> json_event u' = Some j -> u = u'.
Proof.
  unfold json_event. intros O O'. destruct (json_time (e_Date u)) as [t|] eqn:T; [|discriminate]. destruct (json_time (e_Date u')) as [t'|] eqn:T'; [|discriminate].
  cbn [option_map]. intros E E'. rewrite <- E in E'. clear E j. injection E' as H0 H1 H2 H3. subst t'.
  pose proof (json_time_inj _ _ _ O O' T T') as D. clear T T' O O'. destruct u as [x0 x1 x2 x3], u' as [y0 y1 y2 y3]. cbn [e_Date e_Calendar e_Summary e_Description] in *. subst. reflexivity.
Qed.
(** All times of the day are UTC. *)
Definition utc_calday (c : CalDay) : Prop :=
  t_off (cd_Date c) = 0 /\ Forall (fun u => t_off (u_Date u) = 0) (cd_Uposatha c) /\ Forall (fun h => t_off (h_Date h) = 0) (cd_Half c) /\
  Forall (fun a => t_off (a_Date a) = 0) (cd_Astro c) /\ Forall (fun e => t_off (e_Date e) = 0) (cd_Major c) /\ Forall (fun e => t_off (e_Date e) = 0) (cd_Events c).
Lemma json_field_shape {A} n (f : A -> option json) l ps : json_field n f l = Some ps ->
  (l = [] /\ ps = []) \/ (exists j, l <> [] /\ json_list f l = Some j /\ ps = [(n, j)]).
Proof.
  unfold json_field. destruct l as [|x l]; [intros E; injection E as <-; left; auto|]. destruct (json_list f (x :: l)) as [j|]; [|discriminate].
  cbn [option_map]. intros E. injection E as <-. right. exists j. split; [discriminate|auto].
Qed.
Definition no_key (n : string) (l : list (string * json)) : Prop := ~ In n (map fst l).
Lemma field_split {A} n (f : A -> option json) l l' ps ps' r r' :
  (forall x x' y, In x l -> In x' l' -> f x = Some y -> f x' = Some y -> x = x') ->
  json_field n f l = Some ps -> json_field n f l' = Some ps' -> no_key n r -> no_key n r' -> (ps ++ r = ps' ++ r')%list -> l = l' /\ r = r'.
Proof.
  intros H F F' N N' E. destruct (json_field_shape _ _ _ _ F) as [[-> ->]|(j & _ & L & ->)], (json_field_shape _ _ _ _ F') as [[-> ->]|(j' & _ & L' & ->)]; cbn [app] in E.
  - auto.
  - elim N. rewrite E. left. reflexivity.
  - elim N'. rewrite <- E. left. reflexivity.
  - injection E as -> ->. split; [exact (json_list_inj f l l' j' H L L')|reflexivity].
Qed.
Lemma field_keys {A} n (f : A -> option json) l ps m : json_field n f l = Some ps -> n <> m -> no_key m ps.
Proof. intros F N. destruct (json_field_shape _ _ _ _ F) as [[_ ->]|(j & _ & _ & ->)]; [intros []|intros [E|[]]; cbn in E; congruence]. Qed.
Lemma no_key_app m a b : no_key m a -> no_key m b -> no_key m (a ++ b)%list.
Proof. unfold no_key. intros Ha Hb. rewrite map_app, in_app_iff. tauto. Qed.
Lemma json_calday_inj c c' j : utc_calday c -> utc_calday c' -> json_calday c = Some j -> json_calday c' = Some j -> c = c'.
Proof.
  intros (O & Ou & Oh & Oa & Om & Oe) (O' & Ou' & Oh' & Oa' & Om' & Oe'). rewrite Forall_forall in *. unfold json_calday.
  destruct (json_time (cd_Date c)) as [t|] eqn:T; [|discriminate].
  destruct (json_field "UposathaMoon" json_uposatha (cd_Uposatha c)) as [u|] eqn:U; [|discriminate].
  destruct (json_field "HalfMoon" json_half (cd_Half c)) as [h|] eqn:Hh; [|discriminate].
  destruct (json_field "AstroMoon" json_astro (cd_Astro c)) as [a|] eqn:Aa; [|discriminate].
  destruct (json_field "MajorEvents" json_event (cd_Major c)) as [m|] eqn:M; [|discriminate].
  destruct (json_field "Events" json_event (cd_Events c)) as [e|] eqn:Ev; [|discriminate].
  destruct (json_time (cd_Date c')) as [t'|] eqn:T'; [|discriminate].
  destruct (json_field "UposathaMoon" json_uposatha (cd_Uposatha c')) as [u'|] eqn:U'; [|discriminate].
  destruct (json_field "HalfMoon" json_half (cd_Half c')) as [h'|] eqn:Hh'; [|discriminate].
  destruct (json_field "AstroMoon" json_astro (cd_Astro c')) as [a'|] eqn:Aa'; [|discriminate].
  destruct (json_field "MajorEvents" json_event (cd_Major c')) as [m'|] eqn:M'; [|discriminate].
  destruct (json_field "Events" json_event (cd_Events c')) as [e'|] eqn:Ev'; [|discriminate].
  intros E E'. rewrite <- E in E'. clear E j. injection E' as Et E. subst t'.
  pose proof (json_time_inj _ _ _ O O' T T') as D.
  apply (field_split "UposathaMoon" json_uposatha (cd_Uposatha c') (cd_Uposatha c)) in E; try assumption;
    [|intros x x' y Hx Hx'; apply json_uposatha_inj; [apply Ou'|apply Ou]; assumption|repeat apply no_key_app; eapply field_keys; try eassumption; discriminate..]. destruct E as [D1 E].
  apply (field_split "HalfMoon" json_half (cd_Half c') (cd_Half c)) in E; try assumption;
    [|intros x x' y Hx Hx'; apply json_half_inj; [apply Oh'|apply Oh]; assumption|repeat apply no_key_app; eapply field_keys; try eassumption; discriminate..]. destruct E as [D2 E].
  apply (field_split "AstroMoon" json_astro (cd_Astro c') (cd_Astro c)) in E; try assumption;
    [|intros x x' y Hx Hx'; apply json_astro_inj; [apply Oa'|apply Oa]; assumption|repeat apply no_key_app; eapply field_keys; try eassumption; discriminate..]. destruct E as [D3 E].
  apply (field_split "MajorEvents" json_event (cd_Major c') (cd_Major c)) in E; try assumption;
    [|intros x x' y Hx Hx'; apply json_event_inj; [apply Om'|apply Om]; assumption|repeat apply no_key_app; eapply field_keys; try eassumption; discriminate..]. destruct E as [D4 E].
  rewrite <- (app_nil_r e), <- (app_nil_r e') in E.
  apply (field_split "Events" json_event (cd_Events c') (cd_Events c)) in E; try assumption;
    [|intros x x' y Hx Hx'; apply json_event_inj; [apply Oe'|apply Oe]; assumption|intros []..]. destruct E as [D5 E].
  clear - D D1 D2 D3 D4 D5. destruct c as [x0 x1 x2 x3 x4 x5], c' as [y0 y1 y2 y3 y4 y5]. cbn [cd_Date cd_Uposatha cd_Half cd_Astro cd_Major cd_Events] in *. subst. reflexivity.
Qed.
