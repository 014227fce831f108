(** A codec that meets the assumptions, for the examples: numbers with four decimals, times
    as nanoseconds. *)
From Coq Require Import String ZArith List Bool Lia.
From Coq Require Import ZifyBool ZifyNat ZifyN.
From Verif Require Import Base BaseFacts GoStrings TextSpec JsonSpec GoFloat Web100Model Effect QueryModel
  ControlModel Ndt7Model ReceiverProofs CodecModel CodecSpec CodecProofs CodecFacts CodecRead.
From Coq Require Import Floats.SpecFloat.
Import ListNotations.
Open Scope Z_scope.
Ltac Zify.zify_post_hook ::= Z.div_mod_to_equations.

Definition u8 : Z * Z := (0, 2 ^ 8 - 1).
Definition u32 : Z * Z := (0, 2 ^ 32 - 1).
Definition i32 : Z * Z := (- 2 ^ 31, 2 ^ 31 - 1).
Definition i64 : Z * Z := (- 2 ^ 63, 2 ^ 63 - 1).
Definition demo_tcp : list (bytes * (Z * Z)) :=
  [(str "State", u8); (str "CAState", u8); (str "Retransmits", u8); (str "RTO", u32); (str "SndMSS", u32);
   (str "RTT", u32); (str "RTTVar", u32); (str "PacingRate", i64); (str "BytesAcked", i64);
   (str "BytesReceived", i64); (str "SegsOut", i32); (str "MinRTT", u32)].
Definition never : bytes := str "0001-01-01T00:00:00Z".
Definition demo_time (n : Z) : option bytes :=
  if n =? zero_time then Some never
  else if (0 <=? n) && (n <? 2 ^ 63) then Some (itoa n ++ str "Z") else None.
Definition demo_read (w : bytes) : option Z :=
  if beqb w never then Some zero_time
  else if has_suffix (str "Z") w then
    match atoi (take (len w - 1) w) with
    | Some n => if 0 <=? n then Some n else None
    | None => None
    end
  else None.
Definition demo : codec := Codec format_f4 demo_time demo_read demo_tcp (str "4abf83c") (str "v0.22").

Lemma dec_int n : 0 <= n -> dec_nonneg n = [48] \/ exists d ds, dec_nonneg n = d :: ds /\ 49 <= d <= 57 /\ digits ds.
Proof.
  intros N. destruct (itoa_jnumber n) as (sg & int & fr & ex & E & S & I & F & X).
  unfold itoa in E. replace (n <? 0) with false in E by lia.
  destruct (dec_nonneg_spec n N) as (_ & D & _). rewrite E in *. rewrite !Forall_app in D. destruct D as (D1 & D2 & D3 & D4).
  destruct S as [->| ->]; [|inversion D1; lia].
  destruct F as [->|(ds & -> & _)]; [|inversion D3; lia].
  destruct X as [->|(e & s & ds & -> & He & _)]; [|inversion D4; lia].
  rewrite !app_nil_r. cbn [app]. exact I.
Qed.
Lemma fixed_jnumber n (s : bool) : 0 <= n -> jnumber ((if s then str "-" else []) ++ fixed4 n).
Proof.
  intros N. unfold fixed4. exists (if s then str "-" else []), (dec_nonneg (n / 10000)), (str "." ++ pad4 (n mod 10000)), [].
  split; [now rewrite app_nil_r|]. split; [destruct s; auto|]. split; [apply dec_int; lia|].
  split; [|left; reflexivity]. right. exists (pad4 (n mod 10000)). split; [reflexivity|].
  destruct (dec_nonneg_spec (n mod 10000) ltac:(lia)) as (_ & D & NE). unfold pad4. split.
  - apply Forall_app. split; [|exact D]. apply Forall_forall. intros x I. apply repeat_spec in I. subst. unfold digit. lia.
  - intros E. apply app_eq_nil in E as [_ E]. contradiction.
Qed.
Lemma format_jnumber x : f_finite x = true -> jnumber (format_f4 x).
Proof.
  destruct x as [s|s| |s m e]; cbn [f_finite format_f4]; try discriminate; intros _.
  - apply fixed_jnumber. lia.
  - apply fixed_jnumber. unfold ten_thousandths, round_half_even. destruct (0 <=? e) eqn:E.
    + apply Z.mul_nonneg_nonneg; [|lia]. apply Z.mul_nonneg_nonneg; [lia|]. apply Z.pow_nonneg. lia.
    + pose proof (Z.pow_pos_nonneg 2 (- e) ltac:(lia) ltac:(lia)).
      pose proof (Z.div_pos (Zpos m * 10000) (2 ^ - e) ltac:(lia) ltac:(lia)).
      destruct (_ <? _); [lia|]. destruct (_ <? _); [lia|]. destruct (Z.even _); lia.
Qed.
Definition timeb (s : bytes) : bool := forallb (fun b => is_digit b || existsb (Z.eqb b) [45; 43; 58; 46; 84; 90]) s.
Lemma timeb_spec s : timeb s = true -> Forall time_char s.
Proof.
  unfold timeb, time_char. rewrite forallb_forall, Forall_forall. intros H b I. specialize (H b I).
  apply orb_true_iff in H as [H|H]; [left; unfold is_digit in H; lia|right].
  apply existsb_exists in H as (x & Ix & E). apply Z.eqb_eq in E. subst. exact Ix.
Qed.
Lemma demo_ok : codec_ok demo.
Proof.
  split; [exact format_jnumber|]. split.
  { change (k_time demo) with demo_time. unfold demo_time. intros n w H. destruct (n =? zero_time).
    - injection H as <-. apply timeb_spec. reflexivity.
    - destruct (_ && _); [|discriminate]. injection H as <-. apply Forall_app. split.
      + eapply Forall_impl; [|apply itoa_chars]. intros b [->|H]; [right; left; reflexivity|left; lia].
      + apply timeb_spec. reflexivity. }
  split.
  { cbn [k_tcp demo demo_tcp].
    repeat (apply Forall_cons; [split; [discriminate|]; split; [apply letterb_spec; reflexivity|cbn [fst snd u8 u32 i32 i64]; lia]|]). constructor. }
  split.
  { vm_compute. repeat (constructor; [intros H; repeat (destruct H as [H|H]; [discriminate|]); destruct H|]). constructor. }
  split; apply bytes_okb_spec; reflexivity.
Qed.
Lemma demo_back n w : k_time demo n = Some w -> k_read_time demo w = Some n.
Proof.
  change (k_time demo) with demo_time. change (k_read_time demo) with demo_read. unfold demo_time, demo_read. destruct (n =? zero_time) eqn:E.
  - intros [= <-]. apply Z.eqb_eq in E. subst. reflexivity.
  - destruct ((0 <=? n) && (n <? 2 ^ 63)) eqn:R; [|discriminate]. intros H.
    assert (W : w = itoa n ++ str "Z") by congruence. rewrite W. clear W H.
    assert (T : take (len (itoa n ++ str "Z") - 1) (itoa n ++ str "Z") = itoa n).
    { apply take_app_exact. rewrite len_app. change (len (str "Z")) with 1. lia. }
    destruct (beqb (itoa n ++ str "Z") never) eqn:B.
    { exfalso. apply beqb_spec in B. change never with (str "0001-01-01T00:00:00" ++ str "Z") in B. apply app_inv_tail in B.
      pose proof (itoa_chars n) as C. rewrite B in C. apply Forall_forall with (x := 84) in C; [lia|]. vm_compute. tauto. }
    assert (S : has_suffix (str "Z") (itoa n ++ str "Z") = true) by (apply has_suffix_spec; exists (itoa n); reflexivity).
    rewrite S, T, atoi_itoa by (unfold int64_ok, min_int64, max_int64; lia). replace (0 <=? n) with true by lia. reflexivity.
Qed.
Lemma demo_printed s n : k_read_time demo s = Some n -> k_time demo n <> None.
Proof.
  change (k_time demo) with demo_time. change (k_read_time demo) with demo_read. unfold demo_time, demo_read. destruct (beqb s never).
  { intros H. assert (E : n = zero_time) by congruence. rewrite E, Z.eqb_refl. discriminate. }
  destruct (has_suffix _ s); [|discriminate]. destruct (atoi _) as [m|] eqn:A; [|discriminate].
  destruct (0 <=? m) eqn:E; [|discriminate]. intros [= <-]. destruct (m =? zero_time); [discriminate|].
  assert (R : m < 2 ^ 63).
  { apply MessagerProofs.atoi_numeral in A. destruct A as (? & ? & _ & _ & _ & A & _). lia. }
  replace ((0 <=? m) && (m <? 2 ^ 63)) with true by lia. discriminate.
Qed.

Lemma plain_utf8 s : plainb s = true -> utf8_valid s.
Proof.
  intros H. apply plainb_spec in H. destruct (plain_scalars s H) as [F E]. exists s. auto.
Qed.

(** A record of an S2C test with an error text that is not UTF-8, and its document. *)
Definition demo_text (_ : err) : bytes := str "lost: " ++ [255].
Definition demo_mean : f64 := fdiv (f_of_int 187) (f_of_int 2).
Definition demo_tcp_info : tcp_info := tcp_of (map (fun f => (fst f, len (fst f))) demo_tcp).
Definition demo_s2c : s2c_data :=
  S2CData (str "u1") (str "10.0.0.1") 3010 (str "2001:db8::1") 50000 (Some 5) None demo_mean 1 2 3 2 f_zero
          (Some demo_tcp_info) None.
Definition demo_record : record :=
  Record_ (str "host_1") (str "WS") [(str "machine", str "mlab1")] (str "10.0.0.1") 3001 (str "2001:db8::1") 49000
          4 (Some 9) (str "JSON") None (Some demo_s2c) [].
Lemma demo_fits : fits_fields demo (ndt5_fields demo) (ndt5_struct demo demo_text demo_record).
Proof.
  assert (UV : forall s, plainb s = true -> fitt demo TStr s) by exact plain_utf8.
  assert (T : forall n, fitt demo TTime n) by (intros n w; exact (demo_back n w)).
  assert (IN : forall lo hi n, (lo <=? n) && (n <=? hi) = true -> fitt demo (TInt lo hi) n) by (intros; cbn [fitt]; lia).
  assert (PF : fitt demo TFloat demo_mean /\ fitt demo TFloat f_zero) by (split; vm_compute; reflexivity).
  destruct PF as [P1 P2].
  assert (C : forall name o t r x y, fitt demo t x -> fits_fields demo r y -> fits_fields demo (FCons name o t r) (x, y)) by (intros; split; assumption).
  assert (N : fits_fields demo FNil tt) by exact I.
  Ltac leaf UV T IN P1 P2 := first [exact P1 | exact P2 | apply UV; reflexivity | apply IN; reflexivity | apply T].
  unfold ndt5_fields, header_fields, ndt5_struct. do 8 (apply C; [leaf UV T IN P1 P2|]).
  apply C.
  { unfold control_fields, control_struct. change (fits_fields demo control_fields (control_struct demo_record)).
    unfold control_fields, control_struct. do 3 (apply C; [leaf UV T IN P1 P2|]).
    apply C; [constructor|]. apply C; [|exact N]. constructor; [|constructor].
    apply C; [leaf UV T IN P1 P2|]. apply C; [leaf UV T IN P1 P2|exact N]. }
  apply C; [exact I|]. apply C; [|exact N].
  change (fits_fields demo (s2c_fields demo) (s2c_struct demo demo_text demo_s2c)). unfold s2c_fields, s2c_struct.
  do 13 (apply C; [leaf UV T IN P1 P2|]). apply C.
  { change (fits_fields demo (tcp_fields demo) (tcp_struct demo demo_tcp_info)).
    unfold tcp_fields, tcp_struct. cbn [k_tcp demo demo_tcp ints pack u8 u32 i32 i64]. do 12 (apply C; [apply IN; reflexivity|]). exact N. }
  apply C; [leaf UV T IN P1 P2|exact N].
Qed.
