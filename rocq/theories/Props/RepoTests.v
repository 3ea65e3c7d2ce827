(** The unit tests of /repo, run on the model: what the Go functions are known to return.  They
    are tests of the model, not proofs of properties.  Left out: the sizes of Go structs and
    SHA-256 (a parameter of the model), and benchmarks. *)
From Coq Require Import ZArith.
From Verif Require Import Lib.Str Model.Data Model.Pdu Model.Session Model.Json Model.Slurm Model.Process Model.JsonFile Model.Rtrmon Model.PdqSort.
From Coq Require Import List.
Local Open Scope string_scope.
Local Open Scope list_scope.
Local Open Scope N_scope.

Definition pf (s : string) : prefix := match parse_prefix (str s) with Some p => p | None => zero_prefix end.
Definition asns (l : list sd) : list N := map (fun d => match d with VRP _ a _ _ | BgpsecKey a _ _ _ => a end) l.

(** lib/server_test.go *)
Example TestComputeDiff :
  let '(added, removed, unchanged) := compute_diff
    [VRP (pf "fd00::3/128") 65003 128 0; VRP (pf "fd00::2/128") 65002 128 0]
    [VRP (pf "fd00::1/128") 65001 128 0; VRP (pf "fd00::2/128") 65002 128 0] true in
  asns added = [65003] /\ asns removed = [65001] /\ asns unchanged = [65002].
Proof. vm_compute. auto. Qed.
Example TestApplyDiff :
  let l := apply_diff
    [VRP (pf "fd00::3/128") 65003 128 1; VRP (pf "fd00::2/128") 65002 128 0; VRP (pf "fd00::4/128") 65004 128 0;
     VRP (pf "fd00::6/128") 65006 128 0; VRP (pf "fd00::7/128") 65007 128 1]
    [VRP (pf "fd00::1/128") 65001 128 1; VRP (pf "fd00::2/128") 65002 128 1; VRP (pf "fd00::5/128") 65005 128 0;
     VRP (pf "fd00::6/128") 65006 128 0; VRP (pf "fd00::7/128") 65007 128 0] in
  asns l = [65001; 65005; 65003; 65004; 65006; 65007] /\ map get_flag l = [1; 0; 1; 0; 0; 1].
Proof. vm_compute. auto. Qed.
Example TestComputeDiffBGPSEC :
  let '(added, removed, unchanged) := compute_diff
    [BgpsecKey 65003 (str "durr") (str "hurr") 0; BgpsecKey 65002 (str "dce") (str "abc") 0]
    [BgpsecKey 65001 (str "durr") (str "murr") 0; BgpsecKey 65002 (str "dce") (str "abc") 0] true in
  asns added = [65003] /\ asns removed = [65001] /\ asns unchanged = [65002].
Proof. vm_compute. auto. Qed.

(** lib/client_test.go *)
Example TestSendResetQuery : cs_send 0 (ResetQuery 0) = ResetQuery 0 /\ cs_send 1 (ResetQuery 0) = ResetQuery 1.
Proof. vm_compute. auto. Qed.
Example TestSendSerialQuery : cs_send 1 (SerialQuery 0 123 456) = SerialQuery 1 123 456.
Proof. vm_compute. reflexivity. Qed.
Example TestRouterKeyEncodeDecode :
  let p := RouterKey 1 1 (repeat 1 20) 64497 (str "This is not a real key") in
  match encode p with Ok b => decode_bytes 64 b = Ok p | _ => False end.
Proof. vm_compute. reflexivity. Qed.

(** prefixfile/slurm_test.go *)
Definition slurm_json : bytes := str "{
  ""slurmVersion"": 2,
  ""validationOutputFilters"": {
    ""prefixFilters"": [
      {
        ""prefix"": ""192.0.2.0/24"",
        ""comment"": ""All VRPs encompassed by prefix""
      },
      {
        ""asn"": 64496,
        ""comment"": ""All VRPs matching ASN""
      },
      {
        ""prefix"": ""198.51.100.0/24"",
        ""asn"": 64497,
        ""comment"": ""All VRPs encompassed by prefix, matching ASN""
      }
    ],
    ""bgpsecFilters"": [
      {
        ""asn"": 64496,
        ""comment"": ""All keys for ASN""
      },
      {
        ""SKI"": ""XC7RBWu3661vfYmhXZwtUw=="",
        ""comment"": ""Key matching Router SKI""
      },
      {
        ""asn"": 64497,
        ""SKI"": ""XC7RBWu3661vfYmhXZwtUw=="",
        ""comment"": ""Key for ASN 64497 matching Router SKI""
      }
    ]
  },
  ""locallyAddedAssertions"": {
    ""prefixAssertions"": [
      {
        ""asn"": 64496,
        ""prefix"": ""198.51.100.0/24"",
        ""comment"": ""My other important route""
      },
      {
        ""asn"": 64496,
        ""prefix"": ""2001:DB8::/32"",
        ""maxPrefixLength"": 48,
        ""comment"": ""My other important de-aggregated routes""
      }
    ],
    ""bgpsecAssertions"": [
      {
        ""asn"": 64496,
        ""comment"": ""My known key for my important ASN"",
        ""SKI"": ""NQYXZ0PgL2fdRscxGdVDa+fhAQY="",
        ""routerPublicKey"": ""MFkwEwYHKoZIzj0CAQYIKoZIzj0DAQcDQgAEhv5HEBGixUjKJTlenvcD1Axyi07rFdVY1KhN4vMPYy5y0Mx6zfaiEqJN27jK/l61xC36Vsaezd7eXAsZ1AEEsQ==""
      }
    ]
  }
}
".
Example TestDecodeJSONSlurm :
  match decode_slurm slurm_json with
  | Some s => map pf_asn (s_pfilters s) = [None; Some 64496; Some 64497] /\
              option_map pf_prefix (nth_error (s_pfilters s) 0) = Some (str "192.0.2.0/24")
  | None => False
  end.
Proof. vm_compute. auto. Qed.
Definition vj (s : string) (len asn : N) : vrpjson := mkVJ (str s) len (AsnU32 asn) [] None.
Example TestFilterOnVRPs :
  let '(kept, removed) := filter_on_vrps [mkPF (str "10.0.0.0/8") None; mkPF (str "192.168.0.0/24") (Some 65001); mkPF [] (Some 65002)]
    [vj "192.168.0.0/25" 25 65001; vj "192.168.1.0/24" 24 65002; vj "192.168.2.0/24" 24 65003; vj "10.0.0.0/24" 24 65004; vj "10.1.0.0/24" 16 65005] in
  length kept = 1%nat /\ map (fun v => get_asn (vj_asn v)) removed = [65001; 65002; 65004; 65005].
Proof. vm_compute. auto. Qed.
Example TestAssertVRPs :
  map (fun v => (vj_prefix v, vj_length v)) (assert_vrps [mkPA (str "10.0.0.0/8") 65001 0 (str "Hello"); mkPA (str "192.168.0.0/24") 65001 0 [];
    mkPA (str "192.168.0.0/25") 65003 26 []]) = [(str "10.0.0.0/8", 8); (str "192.168.0.0/24", 24); (str "192.168.0.0/25", 26)].
Proof. vm_compute. reflexivity. Qed.
Definition test_keys : list brkjson :=
  [mkBJ 65001 None [] [48; 89; 48; 19; 6; 7; 42; 134; 72; 206; 61; 2; 1; 6; 8; 42; 134; 72; 206; 61; 3; 1; 7; 3; 66; 0; 4; 128; 87; 35; 67; 248; 63; 252; 176; 16; 122; 176; 7; 216; 202; 105; 248; 107; 156; 160; 48; 6; 5; 184; 72; 168; 61; 247; 192; 211; 236; 95; 25; 192; 25; 191; 166; 181; 158; 215; 66; 181; 78; 244; 52; 58; 82; 80; 18; 134; 216; 160; 231; 228; 31; 16; 170; 83; 180; 88; 34; 169; 248; 128; 21] (str "5d4250e2d81d4448d8a29efce91d29ff075ec9e2");
   mkBJ 65003 None [] [48; 89; 48; 19; 6; 7; 42; 134; 72; 206; 61; 2; 1; 6; 8; 42; 134; 72; 206; 61; 3; 1; 7; 3; 66; 0; 4; 224; 92; 73; 175; 73; 246; 110; 236; 117; 185; 125; 68; 190; 95; 144; 91; 6; 88; 188; 134; 157; 62; 50; 238; 21; 125; 166; 198; 162; 174; 0; 101; 33; 42; 122; 251; 84; 178; 195; 130; 177; 62; 250; 95; 105; 229; 225; 246; 145; 100; 205; 84; 3; 118; 216; 85; 20; 221; 214; 255; 68; 170; 68; 219] (str "be889b55d0b737397d75c49f485b858fa98ad11f");
   mkBJ 65002 None [] [48; 89; 48; 19; 6; 7; 42; 134; 72; 206; 61; 2; 1; 6; 8; 42; 134; 72; 206; 61; 3; 1; 7; 3; 66; 0; 4; 134; 254; 71; 16; 17; 162; 197; 72; 202; 37; 57; 94; 158; 247; 3; 212; 12; 114; 139; 78; 235; 21; 213; 88; 212; 168; 77; 226; 243; 15; 99; 46; 114; 208; 204; 122; 205; 246; 162; 18; 162; 77; 219; 184; 202; 254; 94; 181; 196; 45; 250; 86; 198; 158; 205; 222; 222; 92; 11; 25; 212; 1; 4; 177] (str "510f485d29a29db7b515f9c478f8ed3cb7aa7d23");
   mkBJ 65004 None [] [48; 89; 48; 0; 0; 0; 0; 0; 0; 0; 0; 0; 0; 0; 0; 0; 0; 0; 0; 0; 0; 0; 0; 0; 0; 0; 0; 0; 0; 0; 0; 0; 0; 0; 0; 0; 0; 0; 0; 0; 0; 0; 0; 0; 0; 0; 0; 0; 0; 0; 0; 0; 0; 0; 0; 0; 0; 0; 0; 0; 0; 0; 0; 0; 0; 0; 0; 0; 0; 0; 0; 0; 0; 0; 0; 0; 0; 0; 0; 0; 0; 0; 0; 0; 0; 0; 0; 0; 0; 0; 0] (str "111b485d29a29db7b515f9c471e1ed3cb7bb7dee");
   mkBJ 65005 None [] [48; 89; 48; 0; 0; 0; 0; 0; 0; 0; 0; 0; 0; 0; 0; 0; 0; 0; 0; 0; 0; 0; 0; 0; 0; 0; 0; 0; 0; 0; 0; 0; 0; 0; 0; 0; 0; 0; 0; 0; 0; 0; 0; 0; 0; 0; 0; 0; 0; 0; 0; 0; 0; 0; 0; 0; 0; 0; 0; 0; 0; 0; 0; 0; 0; 0; 0; 0; 0; 0; 0; 0; 0; 0; 0; 0; 0; 0; 0; 0; 0; 0; 0; 0; 0; 0; 0; 0; 0; 0; 0] (str "111b485d29a29db7b515f9c471e1ed3cb7bb7dee")].
Example TestFilterOnBSKs :
  let '(kept, removed) := filter_on_brks
    [mkBF None [190; 136; 155; 85; 208; 183; 55; 57; 125; 117; 196; 159; 72; 91; 133; 143; 169; 138; 209; 31]; mkBF (Some 65001) [];
     mkBF (Some 65005) [17; 27; 72; 93; 41; 162; 157; 183; 181; 21; 249; 196; 113; 225; 237; 60; 183; 187; 125; 238]] test_keys in
  length kept = 2%nat /\
  map (fun b => (bj_asn b, bj_ski b)) removed =
    [(65001, str "5d4250e2d81d4448d8a29efce91d29ff075ec9e2"); (65003, str "be889b55d0b737397d75c49f485b858fa98ad11f");
     (65005, str "111b485d29a29db7b515f9c471e1ed3cb7bb7dee")].
Proof. vm_compute. auto. Qed.
Definition test_rpki_json : bytes := str "{
	""metadata"": {
		""buildmachine"": ""ams-vrp-gen1.rpki-client.org"",
		""buildtime"": ""2023-07-27T18:56:02Z"",
		""elapsedtime"": ""301"",
		""usertime"": ""208"",
		""systemtime"": ""113"",
		""roas"": 87883,
		""failedroas"": 0,
		""invalidroas"": 1,
		""certificates"": 26001,
		""failcertificates"": 0,
		""invalidcertificates"": 0,
		""tals"": 4,
		""talfiles"": ""/etc/rpki/afrinic.tal /etc/rpki/apnic.tal /etc/rpki/lacnic.tal /etc/rpki/ripe.tal"",
		""manifests"": 26001,
		""failedmanifests"": 4,
		""stalemanifests"": 4,
		""crls"": 25993,
		""gbrs"": 2,
		""repositories"": 25824,
		""vrps"": 272724,
		""uniquevrps"": 267772,
		""cachedir_del_files"": 31,
		""cachedir_del_dirs"": 283
	},

	""roas"": [
		{ ""asn"": 13335, ""prefix"": ""1.0.0.0/24"", ""maxLength"": 24, ""ta"": ""apnic"", ""expires"": 1827568318 },
		{ ""asn"": 38803, ""prefix"": ""1.0.4.0/24"", ""maxLength"": 24, ""ta"": ""apnic"", ""expires"": 1827559320 },
		{ ""asn"": 38803, ""prefix"": ""1.0.4.0/22"", ""maxLength"": 22, ""ta"": ""apnic"", ""expires"": 1827559320 },
		{ ""asn"": 38803, ""prefix"": ""1.0.5.0/24"", ""maxLength"": 24, ""ta"": ""apnic"", ""expires"": 1827559320 },
		{ ""asn"": 9367, ""prefix"": ""2001:200:136::/48"", ""maxLength"": 48, ""ta"": ""apnic"", ""expires"": 1827575699 },
		{ ""asn"": 24047, ""prefix"": ""2001:200:1ba::/48"", ""maxLength"": 48, ""ta"": ""apnic"", ""expires"": 1827575699 },
		{ ""asn"": 7660, ""prefix"": ""2001:200:900::/40"", ""maxLength"": 40, ""ta"": ""apnic"", ""expires"": 1827575699 },
		{ ""asn"": 4690, ""prefix"": ""2001:200:e00::/40"", ""maxLength"": 40, ""ta"": ""apnic"", ""expires"": 1827575699 },
		{ ""asn"": 1103, ""prefix"": ""2001:610::/32"", ""maxLength"": 48, ""ta"": ""ripe"", ""expires"": 1827488503 },
		{ ""asn"": 1103, ""prefix"": ""2001:610::/29"", ""maxLength"": 29, ""ta"": ""ripe"", ""expires"": 1827488503 },
		{ ""asn"": 3333, ""prefix"": ""2001:610:240::/42"", ""maxLength"": 42, ""ta"": ""ripe"", ""expires"": 1827488503 },
		{ ""asn"": 30999, ""prefix"": ""2001:4248::/32"", ""maxLength"": 64, ""ta"": ""afrinic"", ""expires"": 1827520144 },
		{ ""asn"": 6453, ""prefix"": ""2001:42c8::/32"", ""maxLength"": 32, ""ta"": ""afrinic"", ""expires"": 1827520974 },
		{ ""asn"": 33764, ""prefix"": ""2001:42d0::/40"", ""maxLength"": 40, ""ta"": ""afrinic"", ""expires"": 1827518625 },
		{ ""asn"": 33764, ""prefix"": ""2001:42d0:1500::/40"", ""maxLength"": 40, ""ta"": ""afrinic"", ""expires"": 1827518625 },
		{ ""asn"": 27808, ""prefix"": ""2800:38::/32"", ""maxLength"": 128, ""ta"": ""lacnic"", ""expires"": 1827677646 },
		{ ""asn"": 16814, ""prefix"": ""2800:40::/32"", ""maxLength"": 48, ""ta"": ""lacnic"", ""expires"": 1827665407 },
		{ ""asn"": 16814, ""prefix"": ""2800:40::/32"", ""maxLength"": 32, ""ta"": ""lacnic"", ""expires"": 1827665407 },
		{ ""asn"": 1, ""prefix"": ""192.0.2.0/24"", ""maxLength"": 24, ""ta"": ""lmao"", ""expires"": 1827665407 }
	],
	""bgpsec_keys"": [
	  {
		""asn"": 15562,
		""pubkey"": ""MFkwEwYHKoZIzj0CAQYIKoZIzj0DAQcDQgAEgFcjQ/g//LAQerAH2Mpp+GucoDAGBbhIqD33wNPsXxnAGb+mtZ7XQrVO9DQ6UlAShtig5+QfEKpTtFgiqfiAFQ=="",
		""ski"": ""5d4250e2d81d4448d8a29efce91d29ff075ec9e2""
	  },
	  {
		""asn"": 64496,
		""pubkey"": ""MFkwEwYHKoZIzj0CAQYIKoZIzj0DAQcDQgAEhv5HEBGixUjKJTlenvcD1Axyi07rFdVY1KhN4vMPYy5y0Mx6zfaiEqJN27jK/l61xC36Vsaezd7eXAsZ1AEEsQ=="",
		""ski"": ""510f485d29a29db7b515f9c478f8ed3cb7aa7d23""
	  },
	  {
		""asn"": 15562,
		""pubkey"": ""MFkwEwYHKoZIzj0CAQYIKoZIzj0DAQcDQgAE4FxJr0n2bux1uX1Evl+QWwZYvIadPjLuFX2mxqKuAGUhKnr7VLLDgrE++l9p5eH2kWTNVAN22FUU3db/RKpE2w=="",
		""ski"": ""be889b55d0b737397d75c49f485b858fa98ad11f""
	  }
	],
	""provider_authorizations"": {
	  ""ipv4"": [
		{
		  ""customer_asid"": 15562,
		  ""providers"": [2914,8283,51088,206238]
		},
		{
		  ""customer_asid"": 64496,
		  ""providers"": [1299,6939,7480,32097,50058,61138]
		}
	  ],
	  ""ipv6"": [
		{
		  ""customer_asid"": 64496,
		  ""providers"": [1299,6939,7480,32097,50058,61138]
		},
		{
		  ""customer_asid"": 15562,
		  ""providers"": [2914,8283,51088,206238]
		}
	  ]
	}
}
".
Example TestSlurmEndToEnd :
  match decode_slurm slurm_json, reader (fun n => n) test_rpki_json with
  | Some s, Some f =>
      let '(vrps, keys) := filter_assert s (match rl_roa f with Some l => l | None => [] end) (rl_brk f) in
      existsb (fun v => beqb (vj_prefix v) (str "192.0.2.0/24")) vrps = false /\
      existsb (fun v => beqb (vj_prefix v) (str "198.51.100.0/24")) vrps = true /\
      existsb (fun b => beqb (bj_ski b) (str "510f485d29a29db7b515f9c478f8ed3cb7aa7d23")) keys = false /\
      existsb (fun b => beqb (bj_ski b) (str "3506176743e02f67dd46c73119d5436be7e10106")) keys = true
  | _, _ => False
  end.
Proof. vm_compute. auto. Qed.

(** cmd/stayrtr/stayrtr_test.go.  An ASN given as a Go int there is a uint32 here; the sort is
    the model of sort.Slice (three valid entries: insertion sort, whatever the pivots). *)
Definition pj (s : string) (len : N) (asn : jasn) (ex : option Z) : vrpjson := mkVJ (str s) len asn (str "testrir") ex.
Example TestProcessData : forall choose shuffle now, now = 1700000000%Z ->
  let '(vrps, _, v4, v6) := process_data (sort_slice vrp_less choose shuffle) now
    [pj "192.168.0.0/24" 24 (AsnU32 123) (Some now); pj "192.168.0.0/24" 24 AsnOther None; pj "2001:db8::/32" 33 (AsnStr (str "AS123")) None;
     pj "192.168.1.0/24" 25 (AsnU32 123) None; pj "192.168.1.0/24" 0 (AsnU32 123) None; pj "192.168.1.0/24" 16 (AsnU32 123) None;
     pj "2001:db8::/32" 129 (AsnU32 123) None; pj "192.168.1.0/24" 33 (AsnU32 123) None; pj "192.168.1.0" 24 (AsnU32 123) None;
     mkVJ [240; 159; 145; 187] 24 (AsnU32 123) (str "testrir") None; pj "192.168.1.0/22" 22 (AsnStr (str "ASN123")) None;
     pj "192.168.2.0/24" 24 (AsnU32 124) (Some 1337%Z)] [] in
  vrps = [VRP (pf "2001:db8::/32") 123 33 0; VRP (pf "192.168.1.0/24") 123 25 0; VRP (pf "192.168.0.0/24") 123 24 0] /\ v4 = 2 /\ v6 = 1.
Proof. intros choose shuffle now ->. vm_compute. auto. Qed.
Definition smalltest_rpki_json : bytes := str "{
  ""metadata"": {
    ""buildtime"": ""2021-07-27T18:56:02Z"",
    ""vrps"": 2
  },

  ""roas"": [
    {
      ""asn"": 13335,
      ""prefix"": ""1.0.0.0/24"",
      ""maxLength"": 24,
      ""ta"": ""apnic"",
      ""expires"": 1627568318
    },
    {
      ""asn"": ""AS9367"",
      ""prefix"": ""2001:200:136::/48"",
      ""maxLength"": 48,
      ""ta"": ""apnic"",
      ""expires"": 1627575699
    }
  ]
}
".
Example TestJson :
  option_map (fun f => (fi_meta f, sl_list (fi_roa f), sl_list (fi_brk f))) (decode_json smalltest_rpki_json) =
  Some (mkMeta 2 0 (str "2021-07-27T18:56:02Z") None 0 0,
        [mkVJ (str "1.0.0.0/24") 24 (AsnFloat 13335 0) (str "apnic") (Some 1627568318%Z);
         mkVJ (str "2001:200:136::/48") 48 (AsnStr (str "AS9367")) (str "apnic") (Some 1627575699%Z)], []).
Proof. vm_compute. reflexivity. Qed.

(** cmd/rtrmon/rtrmon_test.go; the grace period is the default of the flag, twenty minutes. *)
Definition stuff : list vrpjson :=
  [pj "192.168.0.0/24" 24 (AsnU32 65537) None; pj "192.168.0.0/24" 24 (AsnU32 65536) None;
   pj "2001:db8::/32" 33 (AsnStr (str "AS64496")) None; pj "192.168.1.0/24" 25 (AsnU32 64497) None].
Definition count_if (f : mentry -> bool) (m : vmap) : nat := length (filter (fun x => f (snd x)) m).
Definition firsts (t : Z) : vmap -> nat := count_if (fun e => (m_first e =? t)%Z).
Definition lasts (t : Z) : vmap -> nat := count_if (fun e => (m_last e =? t)%Z).
Definition visibles : vmap -> nat := count_if m_visible.
Example TestBuildNewVrpMap_expiry :
  let grace := 1200%Z in let now := 1700000000%Z in
  let '(res, n0) := build_new_vrp_map grace [] stuff [] now in
  let '(_, n1) := build_new_vrp_map grace res [] [] (now + 600) in
  let t1 := (now + grace - 1)%Z in
  let '(res2, n2) := build_new_vrp_map grace res [] [] t1 in
  let '(res3, n3) := build_new_vrp_map grace res2 [] [] (now + grace + 1) in
  n0 = 0 /\ n1 = nlen res /\ (lasts t1 res2 = 0 /\ lasts now res2 = 4)%nat /\ n2 = 4 /\ res3 = [] /\ n3 = 0.
Proof. vm_compute. intuition reflexivity. Qed.
Example TestBuildNewVrpMap_firsSeen_lastSeen :
  let grace := 1200%Z in let t0 := 1700000000%Z in let t1 := (t0 + 600)%Z in let t2 := (t1 + 600)%Z in
  let '(res, _) := build_new_vrp_map grace [] stuff [] t0 in
  let '(res1, _) := build_new_vrp_map grace res stuff [] t1 in
  let '(res2, _) := build_new_vrp_map grace res1 [pj "2001:DB8::/32" 48 (AsnU32 65536) None] [] t2 in
  (firsts t0 res = 4 /\ lasts t0 res = 4 /\ visibles res = 4)%nat /\
  (firsts t0 res1 = 4 /\ lasts t1 res1 = 4 /\ visibles res1 = 4)%nat /\
  (firsts t0 res2 = 4 /\ lasts t1 res2 = 4 /\ firsts t2 res2 = 1 /\ lasts t2 res2 = 1 /\ visibles res2 = 1)%nat.
Proof. vm_compute. intuition reflexivity. Qed.
