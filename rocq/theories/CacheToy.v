(** A concrete compression function with the two properties that the theorems about cache
    keys assume (left inverse; no "-" in the output): used to show that the assumptions
    can be met. Every character becomes two letters. *)
From Coq Require Import Ascii.
From Verif Require Import Base Strings.

Definition nibble (n : N) : ascii := ascii_of_N (65 + n).
Definition unnibble (c : ascii) : option N :=
  let n := N_of_ascii c in
  if (65 <=? n)%N && (n <=? 80)%N then Some (n - 65)%N else None.

Fixpoint toy_compress (s : string) : string :=
  match s with
  | EmptyString => EmptyString
  | String c s' =>
      let n := N_of_ascii c in
      String (nibble (N.div n 16)) (String (nibble (N.modulo n 16)) (toy_compress s'))
  end.
Fixpoint toy_decompress (s : string) : option string :=
  match s with
  | EmptyString => Some EmptyString
  | String a (String b s') =>
      match unnibble a, unnibble b, toy_decompress s' with
      | Some x, Some y, Some r => Some (String (ascii_of_N (16 * x + y)) r)
      | _, _, _ => None
      end
  | _ => None
  end.

Lemma toy_char c :
  let n := N_of_ascii c in
  (nibble (N.div n 16) <> "-"%char /\ nibble (N.modulo n 16) <> "-"%char) /\
  exists x y, unnibble (nibble (N.div n 16)) = Some x /\ unnibble (nibble (N.modulo n 16)) = Some y /\
    ascii_of_N (16 * x + y) = c.
Proof.
  destruct c as [[] [] [] [] [] [] [] []]; (split; [by split|eexists _, _; split_and!; [vm_compute; reflexivity|vm_compute; reflexivity|vm_compute; reflexivity]]).
Qed.

Lemma toy_left s : toy_decompress (toy_compress s) = Some s.
Proof.
  induction s as [|c s IH]; [done|]. cbn [toy_compress toy_decompress].
  destruct (toy_char c) as [_ (x & y & Hx & Hy & Hc)]. rewrite Hx, Hy, IH, Hc. done.
Qed.
Lemma toy_dash s : lacks "-"%char (toy_compress s).
Proof.
  induction s as [|c s IH]; [done|]. cbn [toy_compress lacks].
  destruct (toy_char c) as [[H1 H2] _]. done.
Qed.

Lemma toy_lacks a s : ((N_of_ascii a <? 65)%N || (80 <? N_of_ascii a)%N) = true -> lacks a (toy_compress s).
Proof.
  intros Ha. induction s as [|c s IH]; [done|]. cbn [toy_compress lacks].
  assert (H : forall n, (n < 16)%N -> nibble n <> a).
  { intros n Hn <-. unfold nibble in Ha. rewrite N_ascii_embedding in Ha by lia.
    rewrite orb_true_iff, !N.ltb_lt in Ha. lia. }
  assert (Hb : (N_of_ascii c < 256)%N) by apply N_ascii_bounded.
  split_and!; [|apply H; by apply N.mod_lt|done].
  apply H. apply N.div_lt_upper_bound; lia.
Qed.

Lemma toy_inj s s' : toy_compress s = toy_compress s' -> s = s'.
Proof. intros H. apply (f_equal toy_decompress) in H. rewrite !toy_left in H. by injection H. Qed.

(** Two collision-free "digests" in the format of base64 texts. *)
Definition toy_md5 (s : string) : string := String "m" (toy_compress s) +:+ "==".
Definition toy_sha (s : string) : string := String "s" (toy_compress s) +:+ "==".
