(** What the archived documents say, and which texts a client may send as a measurement.
    Independent of the encoder and the decoder of CodecModel.v: only its [codec] record and
    the records of the server are used. *)
From Coq Require Import String ZArith List Bool.
From Verif Require Import Base TextSpec JsonSpec GoFloat MessagerSpec Web100Model Effect QueryModel
  ControlModel Ndt7Model Ndt7Spec CodecModel.
Import ListNotations.
Open Scope Z_scope.

(** ** Assumptions about the texts of numbers and times *)

(** What a time is written with: digits and - + : . T Z. *)
Definition time_char (b : Z) : Prop := 48 <= b <= 57 \/ In b [45; 43; 58; 46; 84; 90].

(** A name of letters. *)
Definition letter (b : Z) : Prop := 65 <= b <= 90 \/ 97 <= b <= 122.
Definition lower_case (b : Z) : Z := if (65 <=? b) && (b <=? 90) then b + 32 else b.

(** Texts of finite numbers are JSON numbers, texts of times are plain; the fields of
    tcp.LinuxTCPInfo have different names even without regard to case, none is called
    ElapsedTime, and all fit 64-bit integers. *)
Definition codec_ok (k : codec) : Prop :=
  (forall x, f_finite x = true -> jnumber (k_float k x)) /\
  (forall n w, k_time k n = Some w -> Forall time_char w) /\
  Forall (fun f => fst f <> [] /\ Forall letter (fst f) /\
                   - 2 ^ 63 <= fst (snd f) <= 0 /\ 0 <= snd (snd f) < 2 ^ 63) (k_tcp k) /\
  NoDup (map (map lower_case) (map fst (k_tcp k) ++ [str "ElapsedTime"])) /\
  bytes_ok (k_commit k) /\ bytes_ok (k_version k).

(** ** Shapes of JSON values *)

Definition is_text (s : bytes) (j : json) : Prop := exists t, repaired s t /\ j = JStr t.
Definition is_int (n : Z) (j : json) : Prop := j = JNum (itoa n).
Definition is_float (k : codec) (x : f64) (j : json) : Prop :=
  f_finite x = true /\ j = JNum (k_float k x).
Definition is_time (k : codec) (n : Z) (j : json) : Prop :=
  exists w, k_time k n = Some w /\ j = JStr w.

(** An object made of the given parts, in that order; a part is a list of members. *)
Definition object (parts : list (list (bytes * json) -> Prop)) (j : json) : Prop :=
  exists ls, Forall2 (fun part l => part l) parts ls /\ j = JObj (concat ls).
(** A member, and a member that is there exactly if there is a value. *)
Definition member (name : bytes) (P : json -> Prop) (l : list (bytes * json)) : Prop :=
  exists j, l = [(name, j)] /\ P j.
Definition optional {A} (name : bytes) (o : option A) (P : A -> json -> Prop) (l : list (bytes * json)) : Prop :=
  match o with Some a => member name (P a) l | None => l = [] end.
(** A list of values, written as null if there are none. *)
Definition array {A} (P : A -> json -> Prop) (xs : list A) (j : json) : Prop :=
  match xs with
  | [] => j = JNull
  | _ => exists js, Forall2 P xs js /\ j = JArr js
  end.
Definition if_any {A} (xs : list A) : option (list A) := match xs with [] => None | _ => Some xs end.

(** ** The documents *)

Section Documents.
  Variable k : codec.
  Variable etext : err -> bytes.

  (** A pair of client or server metadata. *)
  Definition pair_doc (nv : bytes * bytes) : json -> Prop :=
    object [member (str "Name") (is_text (fst nv)); member (str "Value") (is_text (snd nv))].
  Definition meta_part (name : bytes) (m : list (bytes * bytes)) : list (bytes * json) -> Prop :=
    optional name (if_any m) (array pair_doc).

  (** The fields of TCP_INFO. *)
  Definition tcp_parts (t : tcp_info) : list (list (bytes * json) -> Prop) :=
    map (fun f => member (fst f) (is_int (tcp_value t (fst f)))) (k_tcp k).

  (** A measurement. *)
  Definition app_doc (a : Z * Z) : json -> Prop :=
    object [member (str "NumBytes") (is_int (fst a)); member (str "ElapsedTime") (is_int (snd a))].
  Definition conn_doc (c : conn_info) : json -> Prop :=
    object [member (str "Client") (is_text (ci_client c)); member (str "Server") (is_text (ci_server c));
            optional (str "UUID") (if_any (ci_uuid c)) is_text;
            member (str "StartTime") (is_time k (ci_start c))].
  Definition bbr_doc (b : bbr_info * Z) : json -> Prop :=
    object [member (str "BW") (is_int (b_bw (fst b))); member (str "MinRTT") (is_int (b_min_rtt (fst b)));
            member (str "PacingGain") (is_int (b_pacing_gain (fst b)));
            member (str "CwndGain") (is_int (b_cwnd_gain (fst b)));
            member (str "ElapsedTime") (is_int (snd b))].
  Definition tcp7_doc (t : tcp_info * Z) : json -> Prop :=
    object (tcp_parts (fst t) ++ [member (str "ElapsedTime") (is_int (snd t))]).
  Definition measurement_doc (m : measurement) : json -> Prop :=
    object [optional (str "AppInfo") (m_app m) app_doc;
            optional (str "ConnectionInfo") (m_conn m) conn_doc;
            optional (str "BBRInfo") (m_bbr m) bbr_doc;
            optional (str "TCPInfo") (m_tcp m) tcp7_doc].

  (** The result of an ndt7 test. *)
  Definition archival_doc (a : archival) : json -> Prop :=
    object [member (str "UUID") (is_text (a_uuid a));
            member (str "StartTime") (is_time k (time_of (a_start a)));
            member (str "EndTime") (is_time k (time_of (a_end a)));
            member (str "ServerMeasurements") (array measurement_doc (a_server a));
            member (str "ClientMeasurements") (array measurement_doc (a_client a));
            meta_part (str "ClientMetadata") (a_client_meta a);
            meta_part (str "ServerMetadata") (a_server_meta a)].
  Definition header_parts (sip : bytes) (sport : Z) (cip : bytes) (cport start stop : Z) :=
    [member (str "GitShortCommit") (is_text (k_commit k)); member (str "Version") (is_text (k_version k));
     member (str "ServerIP") (is_text sip); member (str "ServerPort") (is_int sport);
     member (str "ClientIP") (is_text cip); member (str "ClientPort") (is_int cport);
     member (str "StartTime") (is_time k start); member (str "EndTime") (is_time k stop)].
  Definition ndt7_doc (r : result7) : json -> Prop :=
    object (header_parts (n_server_ip r) (n_server_port r) (n_client_ip r) (n_client_port r) (n_start r) (n_end r) ++
            [optional (str "Upload") (n_upload r) archival_doc;
             optional (str "Download") (n_download r) archival_doc]).

  (** The record of an NDT5 connection. *)
  Definition control_doc (r : record) : json -> Prop :=
    object [member (str "UUID") (is_text (r_uuid r)); member (str "Protocol") (is_text (r_protocol r));
            member (str "MessageProtocol") (is_text (r_message_protocol r));
            meta_part (str "ClientMetadata") (r_client_meta r);
            meta_part (str "ServerMetadata") (r_server_meta r)].
  Definition error_part (e : option err) : list (bytes * json) -> Prop :=
    optional (str "Error") (match e with Some e => if_any (etext e) | None => None end) is_text.
  Definition c2s_doc (u : c2s_data) : json -> Prop :=
    object [member (str "ServerIP") (is_text (u_server_ip u)); member (str "ServerPort") (is_int (u_server_port u));
            member (str "ClientIP") (is_text (u_client_ip u)); member (str "ClientPort") (is_int (u_client_port u));
            member (str "UUID") (is_text (u_uuid u));
            member (str "StartTime") (is_time k (time_of (u_start u)));
            member (str "EndTime") (is_time k (time_of (u_end u)));
            member (str "MeanThroughputMbps") (is_float k (u_mean u));
            error_part (u_error u)].
  Definition s2c_doc (d : s2c_data) : json -> Prop :=
    object [member (str "UUID") (is_text (d_uuid d));
            member (str "ServerIP") (is_text (d_server_ip d)); member (str "ServerPort") (is_int (d_server_port d));
            member (str "ClientIP") (is_text (d_client_ip d)); member (str "ClientPort") (is_int (d_client_port d));
            member (str "StartTime") (is_time k (time_of (d_start d)));
            member (str "EndTime") (is_time k (time_of (d_end d)));
            member (str "MeanThroughputMbps") (is_float k (d_mean d));
            member (str "MinRTT") (is_int (d_min_rtt d)); member (str "MaxRTT") (is_int (d_max_rtt d));
            member (str "SumRTT") (is_int (d_sum_rtt d)); member (str "CountRTT") (is_int (d_count_rtt d));
            member (str "ClientReportedMbps") (is_float k (d_client_mbps d));
            optional (str "TCPInfo") (d_tcp_info d) (fun t => object (tcp_parts t));
            error_part (d_error d)].
  Definition ndt5_doc (r : record) : json -> Prop :=
    object (header_parts (r_server_ip r) (r_server_port r) (r_client_ip r) (r_client_port r)
                         (r_start r) (time_of (r_end r)) ++
            [member (str "Control") (control_doc r);
             optional (str "C2S") (r_c2s r) c2s_doc; optional (str "S2C") (r_s2c r) s2c_doc]).

  (** ** Byte strings: the model's strings are lists of integers; these are the lists that
      are strings of bytes. *)
  Definition pairs_bytes (l : list (bytes * bytes)) : Prop :=
    Forall (fun nv => bytes_ok (fst nv) /\ bytes_ok (snd nv)) l.
  Definition record_bytes (r : record) : Prop :=
    bytes_ok (r_uuid r) /\ bytes_ok (r_protocol r) /\ bytes_ok (r_message_protocol r) /\
    pairs_bytes (r_client_meta r) /\ pairs_bytes (r_server_meta r) /\
    bytes_ok (r_server_ip r) /\ bytes_ok (r_client_ip r) /\
    (forall u, r_c2s r = Some u -> bytes_ok (u_server_ip u) /\ bytes_ok (u_client_ip u) /\ bytes_ok (u_uuid u)) /\
    (forall d, r_s2c r = Some d -> bytes_ok (d_server_ip d) /\ bytes_ok (d_client_ip d) /\ bytes_ok (d_uuid d)) /\
    (forall e, bytes_ok (etext e)).
  Definition measurement_bytes (m : measurement) : Prop :=
    forall c, m_conn m = Some c -> bytes_ok (ci_client c) /\ bytes_ok (ci_server c) /\ bytes_ok (ci_uuid c).
  Definition archival_bytes (a : archival) : Prop :=
    bytes_ok (a_uuid a) /\ Forall measurement_bytes (a_server a) /\ Forall measurement_bytes (a_client a) /\
    pairs_bytes (a_client_meta a) /\ pairs_bytes (a_server_meta a).
  Definition result7_bytes (r : result7) : Prop :=
    bytes_ok (n_server_ip r) /\ bytes_ok (n_client_ip r) /\
    (forall a, n_upload r = Some a -> archival_bytes a) /\ (forall a, n_download r = Some a -> archival_bytes a).

  (** ** Times that can be written *)
  Definition printable (n : Z) : Prop := k_time k n <> None.
  Definition times5 (r : record) : list Z :=
    [r_start r; time_of (r_end r)] ++
    match r_c2s r with Some u => [time_of (u_start u); time_of (u_end u)] | None => [] end ++
    match r_s2c r with Some d => [time_of (d_start d); time_of (d_end d)] | None => [] end.
  Definition measurement_times (m : measurement) : list Z :=
    match m_conn m with Some c => [ci_start c] | None => [] end.
  Definition archival_times (o : option archival) : list Z :=
    match o with
    | Some a => [time_of (a_start a); time_of (a_end a)] ++
                flat_map measurement_times (a_server a) ++ flat_map measurement_times (a_client a)
    | None => []
    end.
  (** Those of a result that the server took itself, and the client's measurements. *)
  Definition part_times (o : option archival) : list Z :=
    match o with
    | Some a => [time_of (a_start a); time_of (a_end a)] ++ flat_map measurement_times (a_server a)
    | None => []
    end.
  Definition server_times (r : result7) : list Z :=
    [n_start r; n_end r] ++ part_times (n_upload r) ++ part_times (n_download r).
  Definition part_client (o : option archival) : list measurement := match o with Some a => a_client a | None => [] end.
  Definition client_measurements (r : result7) : list measurement := part_client (n_upload r) ++ part_client (n_download r).
  Definition times7 (r : result7) : list Z :=
    [n_start r; n_end r] ++ archival_times (n_upload r) ++ archival_times (n_download r).
End Documents.

(** ** Values that survive a round trip exactly: strings are UTF-8, integers are in the range
    of their field, and the texts of numbers and times stand for these numbers and times. *)
Fixpoint fitt (k : codec) (t : gtype) : dent t -> Prop :=
  match t with
  | TStr => utf8_valid
  | TInt lo hi => fun n => lo <= n <= hi
  | TFloat => fun x => parse_float (k_float k x) = Some x
  | TTime => fun n => forall w, k_time k n = Some w -> k_read_time k w = Some n
  | TPtr fs => fun o => match o with None => True | Some v => fits_fields k fs v end
  | TSlice fs => Forall (fits_fields k fs)
  end
with fits_fields (k : codec) (fs : gfields) : dens fs -> Prop :=
  match fs with
  | FNil => fun _ => True
  | FCons _ _ t r => fun v => fitt k t (fst v) /\ fits_fields k r (snd v)
  end.

(** TCP information whose fields are those the kernel has, in that order. *)
Definition tcp_like (k : codec) (t : tcp_info) : Prop :=
  exists vs, map fst vs = map fst (k_tcp k) /\ t = tcp_of vs.

(** ** What a client may send as a measurement *)

(** The member name [key] selects the field [name]: equal but for the case of letters (and
    the two letters outside ASCII that count as s and k). *)
Definition selects (name key : bytes) : Prop := spells (map lower_case name) key.

(** The values of the members that select a field, in order. *)
Inductive selected (name : bytes) : list (bytes * json) -> list json -> Prop :=
| sel_nil : selected name [] []
| sel_yes key j l js : selects name key -> selected name l js -> selected name ((key, j) :: l) (j :: js)
| sel_no key j l js : ~ selects name key -> selected name l js -> selected name ((key, j) :: l) js.

(** Every value is null or of the right kind, and the last that is not null counts. *)
Definition scalar_field {A} (P : json -> A -> Prop) (zero : A) (js : list json) (a : A) : Prop :=
  Forall (fun j => j = JNull \/ exists x, P j x) js /\
  ((Forall (eq JNull) js /\ a = zero) \/
   exists js1 j js2, js = js1 ++ j :: js2 /\ P j a /\ Forall (eq JNull) js2).

Definition text_value (j : json) (s : bytes) : Prop := j = JStr s.
(** A whole number without fraction or exponent, in the range; no sign if the type is
    unsigned. *)
Definition int_value (lo hi : Z) (j : json) (n : Z) : Prop :=
  exists w, j = JNum w /\ numeral w n /\ lo <= n <= hi /\ (lo = 0 -> forall r, w <> 45 :: r).
Definition time_value (k : codec) (j : json) (n : Z) : Prop :=
  exists s, j = JStr s /\ k_read_time k s = Some n.

(** The members of all objects since the last null, if there are any objects. *)
Definition merge (js : list json) : option (list (bytes * json)) :=
  fold_left (fun acc j =>
    match j with
    | JObj l => Some (match acc with Some m => m ++ l | None => l end)
    | _ => None
    end) js None.

(** A field that points to a struct: every value is null or an acceptable object; members
    of several objects add up until a null. *)
Definition struct_field {A} (P : list (bytes * json) -> A -> Prop) (js : list json) (o : option A) : Prop :=
  Forall (fun j => j = JNull \/ exists l x, j = JObj l /\ P l x) js /\
  match merge js with
  | None => o = None
  | Some l => exists x, P l x /\ o = Some x
  end.

Definition has {A} (name : bytes) (P : list json -> A -> Prop) (l : list (bytes * json)) (a : A) : Prop :=
  exists js, selected name l js /\ P js a.

Definition int_field (lo hi : Z) := scalar_field (int_value lo hi) 0.
Definition int64_field := int_field (- 2 ^ 63) (2 ^ 63 - 1).
Definition uint32_field := int_field 0 (2 ^ 32 - 1).
Definition text_field := scalar_field text_value [].

Section Accepted.
  Variable k : codec.
  Definition app_members (l : list (bytes * json)) (a : Z * Z) : Prop :=
    has (str "NumBytes") int64_field l (fst a) /\ has (str "ElapsedTime") int64_field l (snd a).
  Definition conn_members (l : list (bytes * json)) (c : conn_info) : Prop :=
    has (str "Client") text_field l (ci_client c) /\ has (str "Server") text_field l (ci_server c) /\
    has (str "UUID") text_field l (ci_uuid c) /\
    has (str "StartTime") (scalar_field (time_value k) zero_time) l (ci_start c).
  Definition bbr_members (l : list (bytes * json)) (b : bbr_info * Z) : Prop :=
    has (str "BW") int64_field l (b_bw (fst b)) /\ has (str "MinRTT") uint32_field l (b_min_rtt (fst b)) /\
    has (str "PacingGain") uint32_field l (b_pacing_gain (fst b)) /\
    has (str "CwndGain") uint32_field l (b_cwnd_gain (fst b)) /\
    has (str "ElapsedTime") int64_field l (snd b).
  (** The model's [tcp_info] of some field values. *)
  Definition tcp_members (l : list (bytes * json)) (t : tcp_info * Z) : Prop :=
    (exists vs, Forall2 (fun f v => fst v = fst f /\
                           has (fst f) (int_field (fst (snd f)) (snd (snd f))) l (snd v)) (k_tcp k) vs /\
       fst t = tcp_of vs) /\
    has (str "ElapsedTime") int64_field l (snd t).
  Definition measurement_members (l : list (bytes * json)) (m : measurement) : Prop :=
    has (str "AppInfo") (struct_field app_members) l (m_app m) /\
    has (str "ConnectionInfo") (struct_field conn_members) l (m_conn m) /\
    has (str "BBRInfo") (struct_field bbr_members) l (m_bbr m) /\
    has (str "TCPInfo") (struct_field tcp_members) l (m_tcp m).

  (** A text that is accepted as a measurement, and the measurement. *)
  Definition measurement_text (text : bytes) (m : measurement) : Prop :=
    (json_text text JNull /\ m = Measurement None None None None) \/
    (exists l, json_text text (JObj l) /\ measurement_members l m).
End Accepted.

(** The text messages among what a receiver gets. *)
Definition texts_of (l : list input) : list bytes :=
  flat_map (fun i => match i with IText d => [d] | _ => [] end) l.
