(** RepoTests.v - the Extract test tables of fasttld_test.go:227-771 run on the model.
    Generated by tools/gen_tests.py.  These are tests of the model, not proofs about it. *)

From Verif Require Import Base Str Net Trie Extract.
Local Open Scope N_scope.

Record case := mkCase { c_private : bool; c_url : bytes; c_ignore : bool; c_puny : bool;
  c_unicode_err : option bytes; c_to_puny : option bytes; c_expected : result; c_err : option err }.

Definition err_eqb (a b : option err) : bool :=
  match a, b with
  | None, None => true
  | Some ErrOpeningBracket, Some ErrOpeningBracket => true
  | Some ErrClosingBracket, Some ErrClosingBracket => true
  | Some ErrIncompleteBrackets, Some ErrIncompleteBrackets => true
  | Some ErrInvalidIPv6, Some ErrInvalidIPv6 => true
  | Some ErrTrailingAfterIPv6, Some ErrTrailingAfterIPv6 => true
  | Some ErrInvalidPort, Some ErrInvalidPort => true
  | Some (ErrUnescape x), Some (ErrUnescape y) => bytes_eqb x y
  | Some (ErrIdna x), Some (ErrIdna y) => bytes_eqb x y
  | Some ErrConsecutiveSeparators, Some ErrConsecutiveSeparators => true
  | Some ErrInvalidChars, Some ErrInvalidChars => true
  | Some ErrEmptyDomain, Some ErrEmptyDomain => true
  | _, _ => false
  end.
Definition host_type_eqb (a b : host_type) : bool :=
  match a, b with
  | HNone, HNone | HHostName, HHostName | HIPv4, HIPv4 | HIPv6, HIPv6 => true
  | _, _ => false
  end.
Definition result_eqb (a b : result) : bool :=
  bytes_eqb (r_scheme a) (r_scheme b) && bytes_eqb (r_user_info a) (r_user_info b)
  && bytes_eqb (r_sub_domain a) (r_sub_domain b) && bytes_eqb (r_domain a) (r_domain b)
  && bytes_eqb (r_suffix a) (r_suffix b)
  && bytes_eqb (r_registered_domain a) (r_registered_domain b)
  && bytes_eqb (r_port a) (r_port b) && bytes_eqb (r_path a) (r_path b)
  && host_type_eqb (r_host_type a) (r_host_type b).

Definition public_rules : list bytes :=
  [[97;105];
   [111;102;102;46;97;105];
   [99;111;109;46;97;105];
   [110;101;116;46;97;105];
   [111;114;103;46;97;105];
   [97;109];
   [99;111;46;97;109];
   [99;111;109;46;97;109];
   [99;111;109;109;117;110;101;46;97;109];
   [110;101;116;46;97;109];
   [111;114;103;46;97;109];
   [97;115];
   [103;111;118;46;97;115];
   [98;101];
   [97;99;46;98;101];
   [42;46;99;107];
   [33;119;119;119;46;99;107];
   [99;111];
   [97;114;116;115;46;99;111];
   [99;111;109;46;99;111];
   [101;100;117;46;99;111];
   [110;101;116;46;99;111];
   [111;114;103;46;99;111];
   [99;111;109];
   [100;101];
   [42;46;102;107];
   [104;107];
   [99;111;109;46;104;107];
   [101;100;117;46;104;107];
   [103;111;118;46;104;107];
   [110;101;116;46;104;107];
   [111;114;103;46;104;107];
   [120;110;45;45;108;99;118;114;51;50;100;46;104;107];
   [230;149;142;232;130;178;46;104;107];
   [120;110;45;45;99;105;113;112;110;46;104;107];
   [228;184;170;228;186;186;46;104;107];
   [109;101];
   [99;111;46;109;101];
   [110;101;116;46;109;101];
   [111;114;103;46;109;101];
   [101;100;117;46;109;101];
   [97;99;46;109;101];
   [110;101;116];
   [111;114;103];
   [115;103];
   [99;111;109;46;115;103];
   [110;101;116;46;115;103];
   [111;114;103;46;115;103];
   [103;111;118;46;115;103];
   [101;100;117;46;115;103];
   [116;104];
   [97;99;46;116;104];
   [99;111;46;116;104];
   [103;111;46;116;104];
   [105;110;46;116;104];
   [110;101;116;46;116;104];
   [116;111];
   [99;111;109;46;116;111];
   [103;111;118;46;116;111];
   [110;101;116;46;116;111];
   [111;114;103;46;116;111];
   [101;100;117;46;116;111];
   [116;118];
   [117;107];
   [97;99;46;117;107];
   [99;111;46;117;107];
   [103;111;118;46;117;107];
   [109;101;46;117;107];
   [110;101;116;46;117;107];
   [111;114;103;46;117;107];
   [120;110;45;45;57;48;97;51;97;99];
   [209;129;209;128;208;177];
   [120;110;45;45;111;49;97;99;46;120;110;45;45;57;48;97;51;97;99];
   [208;191;209;128;46;209;129;209;128;208;177];
   [120;110;45;45;99;49;97;118;103;46;120;110;45;45;57;48;97;51;97;99];
   [208;190;209;128;208;179;46;209;129;209;128;208;177];
   [120;110;45;45;57;48;97;122;104;46;120;110;45;45;57;48;97;51;97;99];
   [208;190;208;177;209;128;46;209;129;209;128;208;177];
   [97;99;46;122;97];
   [97;103;114;105;99;46;122;97];
   [99;111;46;122;97];
   [110;101;116;46;122;97];
   [111;114;103;46;122;97];
   [98;97;114];
   [102;111;111];
   [103;108;111;98;97;108];
   [103;111;111;103;108;101];
   [112;114;111;100];
   [116;101;109;97;115;101;107]].
Definition private_rules : list bytes :=
  [[42;46;100;101;118;99;100;110;97;99;99;101;115;115;111;46;99;111;109];
   [97;100;111;98;101;97;101;109;99;108;111;117;100;46;99;111;109];
   [97;100;111;98;101;97;101;109;99;108;111;117;100;46;110;101;116];
   [97;108;116;101;114;118;105;115;116;97;46;111;114;103];
   [97;108;119;97;121;115;100;97;116;97;46;110;101;116];
   [116;101;108;101;46;97;109;117;110;101;46;111;114;103];
   [98;112;108;97;99;101;100;46;100;101];
   [115;113;117;97;114;101;55;46;100;101];
   [117;119;117;46;97;105];
   [99;111;109;46;100;101];
   [100;101;46;99;111;109];
   [117;107;46;99;111;109];
   [117;107;46;110;101;116];
   [122;97;46;99;111;109];
   [99;111;46;99;111;109];
   [114;97;100;105;111;46;97;109];
   [119;101;98;104;111;115;116;105;110;103;46;98;101];
   [100;121;110;100;110;115;46;116;118];
   [98;101;116;116;101;114;45;116;104;97;110;46;116;118];
   [97;46;112;114;111;100;46;102;97;115;116;108;121;46;110;101;116];
   [103;108;111;98;97;108;46;112;114;111;100;46;102;97;115;116;108;121;46;110;101;116];
   [98;108;111;103;115;112;111;116;46;97;109];
   [98;108;111;103;115;112;111;116;46;98;101];
   [98;108;111;103;115;112;111;116;46;99;111;46;117;107];
   [98;108;111;103;115;112;111;116;46;99;111;46;122;97];
   [98;108;111;103;115;112;111;116;46;99;111;109];
   [98;108;111;103;115;112;111;116;46;99;111;109;46;99;111];
   [98;108;111;103;115;112;111;116;46;100;101];
   [98;108;111;103;115;112;111;116;46;104;107];
   [98;108;111;103;115;112;111;116;46;115;103];
   [104;107;46;99;111;109];
   [104;107;46;111;114;103];
   [122;97;46;110;101;116];
   [122;97;46;111;114;103]].
Definition cases : list case := [
mkCase false [104;58;47;47;101;120;97;109;112;108;101;46;99;111;109] false false (None) (None)
   (mkResult [104;58;47;47] [] [] [101;120;97;109;112;108;101] [99;111;109] [101;120;97;109;112;108;101;46;99;111;109] [] [] HHostName) (None);
  mkCase false [104;84;116;80;115;58;47;47;101;120;97;109;112;108;101;46;99;111;109] false false (None) (None)
   (mkResult [104;84;116;80;115;58;47;47] [] [] [101;120;97;109;112;108;101] [99;111;109] [101;120;97;109;112;108;101;46;99;111;109] [] [] HHostName) (None);
  mkCase false [103;105;116;45;115;115;104;58;47;47;101;120;97;109;112;108;101;46;99;111;109] false false (None) (None)
   (mkResult [103;105;116;45;115;115;104;58;47;47] [] [] [101;120;97;109;112;108;101] [99;111;109] [101;120;97;109;112;108;101;46;99;111;109] [] [] HHostName) (None);
  mkCase false [104;116;116;112;115;58;47;47;117;115;101;114;110;97;109;101;58;112;97;115;115;119;111;114;100;64;102;111;111;46;101;120;97;109;112;108;101;46;99;111;109;58;57;57;57;47;115;111;109;101;47;112;97;116;104;63;112;97;114;97;109;49;61;118;97;108;117;101;49;38;112;97;114;97;109;50;61;232;145;161;232;144;132] false false (None) (None)
   (mkResult [104;116;116;112;115;58;47;47] [117;115;101;114;110;97;109;101;58;112;97;115;115;119;111;114;100] [102;111;111] [101;120;97;109;112;108;101] [99;111;109] [101;120;97;109;112;108;101;46;99;111;109] [57;57;57] [47;115;111;109;101;47;112;97;116;104;63;112;97;114;97;109;49;61;118;97;108;117;101;49;38;112;97;114;97;109;50;61;232;145;161;232;144;132] HHostName) (None);
  mkCase false [104;116;116;112;58;47;47;119;119;119;46;101;120;97;109;112;108;101;46;99;111;109] false false (None) (None)
   (mkResult [104;116;116;112;58;47;47] [] [119;119;119] [101;120;97;109;112;108;101] [99;111;109] [101;120;97;109;112;108;101;46;99;111;109] [] [] HHostName) (None);
  mkCase false [104;116;116;112;58;47;47;101;120;97;109;112;108;101;46;99;111;46;117;107;47;112;97;116;104;63;112;97;114;97;109;49;61;118;97;108;117;101;49;38;112;97;114;97;109;50;61;232;145;161;232;144;132;38;112;97;114;97;109;51;61;118;97;108;117;101;51;38;112;97;114;97;109;52;61;118;97;108;117;101;52;38;115;114;99;61;104;116;116;112;115;37;51;65;37;50;70;37;50;70;119;119;119;46;101;120;97;109;112;108;101;46;110;101;116;37;50;70] false false (None) (None)
   (mkResult [104;116;116;112;58;47;47] [] [] [101;120;97;109;112;108;101] [99;111;46;117;107] [101;120;97;109;112;108;101;46;99;111;46;117;107] [] [47;112;97;116;104;63;112;97;114;97;109;49;61;118;97;108;117;101;49;38;112;97;114;97;109;50;61;232;145;161;232;144;132;38;112;97;114;97;109;51;61;118;97;108;117;101;51;38;112;97;114;97;109;52;61;118;97;108;117;101;52;38;115;114;99;61;104;116;116;112;115;37;51;65;37;50;70;37;50;70;119;119;119;46;101;120;97;109;112;108;101;46;110;101;116;37;50;70] HHostName) (None);
  mkCase false [104;116;116;112;58;47;47;98;105;103;46;108;111;110;103;46;115;117;98;46;100;111;109;97;105;110;46;101;120;97;109;112;108;101;46;99;111;46;117;107;47;112;97;116;104;63;112;97;114;97;109;49;61;118;97;108;117;101;49;38;112;97;114;97;109;50;61;232;145;161;232;144;132;38;112;97;114;97;109;51;61;118;97;108;117;101;51;38;112;97;114;97;109;52;61;118;97;108;117;101;52;38;115;114;99;61;104;116;116;112;115;37;51;65;37;50;70;37;50;70;119;119;119;46;101;120;97;109;112;108;101;46;110;101;116;37;50;70] false false (None) (None)
   (mkResult [104;116;116;112;58;47;47] [] [98;105;103;46;108;111;110;103;46;115;117;98;46;100;111;109;97;105;110] [101;120;97;109;112;108;101] [99;111;46;117;107] [101;120;97;109;112;108;101;46;99;111;46;117;107] [] [47;112;97;116;104;63;112;97;114;97;109;49;61;118;97;108;117;101;49;38;112;97;114;97;109;50;61;232;145;161;232;144;132;38;112;97;114;97;109;51;61;118;97;108;117;101;51;38;112;97;114;97;109;52;61;118;97;108;117;101;52;38;115;114;99;61;104;116;116;112;115;37;51;65;37;50;70;37;50;70;119;119;119;46;101;120;97;109;112;108;101;46;110;101;116;37;50;70] HHostName) (None);
  mkCase false [102;116;112;58;47;47;117;115;101;114;110;97;109;101;229;144;141;229;173;151;58;112;97;115;115;119;111;114;100;64;109;97;105;108;46;101;120;97;109;112;108;101;46;99;111;46;117;107;58;54;54;54;47;112;97;116;104;63;112;97;114;97;109;49;61;118;97;108;117;101;49;38;112;97;114;97;109;50;61;232;145;161;232;144;132;38;112;97;114;97;109;51;61;118;97;108;117;101;51;38;112;97;114;97;109;52;61;118;97;108;117;101;52;38;115;114;99;61;104;116;116;112;115;37;51;65;37;50;70;37;50;70;119;119;119;46;101;120;97;109;112;108;101;46;110;101;116;37;50;70] false false (None) (None)
   (mkResult [102;116;112;58;47;47] [117;115;101;114;110;97;109;101;229;144;141;229;173;151;58;112;97;115;115;119;111;114;100] [109;97;105;108] [101;120;97;109;112;108;101] [99;111;46;117;107] [101;120;97;109;112;108;101;46;99;111;46;117;107] [54;54;54] [47;112;97;116;104;63;112;97;114;97;109;49;61;118;97;108;117;101;49;38;112;97;114;97;109;50;61;232;145;161;232;144;132;38;112;97;114;97;109;51;61;118;97;108;117;101;51;38;112;97;114;97;109;52;61;118;97;108;117;101;52;38;115;114;99;61;104;116;116;112;115;37;51;65;37;50;70;37;50;70;119;119;119;46;101;120;97;109;112;108;101;46;110;101;116;37;50;70] HHostName) (None);
  mkCase false [103;105;116;43;115;115;104;58;47;47;119;119;119;46;101;120;97;109;112;108;101;46;99;111;109;47] false false (None) (None)
   (mkResult [103;105;116;43;115;115;104;58;47;47] [] [119;119;119] [101;120;97;109;112;108;101] [99;111;109] [101;120;97;109;112;108;101;46;99;111;109] [] [47] HHostName) (None);
  mkCase false [115;115;104;58;47;47;115;101;114;118;101;114;46;101;120;97;109;112;108;101;46;99;111;109;47] false false (None) (None)
   (mkResult [115;115;104;58;47;47] [] [115;101;114;118;101;114] [101;120;97;109;112;108;101] [99;111;109] [101;120;97;109;112;108;101;46;99;111;109] [] [47] HHostName) (None);
  mkCase false [104;116;116;112;58;47;47;119;119;119;46;119;119;119;46;110;101;116] false false (None) (None)
   (mkResult [104;116;116;112;58;47;47] [] [119;119;119] [119;119;119] [110;101;116] [119;119;119;46;110;101;116] [] [] HHostName) (None);
  mkCase false [108;111;99;97;108;104;111;115;116] false false (None) (None)
   (mkResult [] [] [] [108;111;99;97;108;104;111;115;116] [] [] [] [] HHostName) (None);
  mkCase false [49;54;55;55;55;50;49;53] false false (None) (None)
   (mkResult [] [] [] [49;54;55;55;55;50;49;53] [] [] [] [] HHostName) (None);
  mkCase false [111;114;103] false false (None) (None)
   (mkResult [] [] [] [] [111;114;103] [] [] [] HNone) (Some ErrEmptyDomain);
  mkCase false [111;114;103;46] false false (None) (None)
   (mkResult [] [] [] [] [111;114;103] [] [] [] HNone) (Some ErrEmptyDomain);
  mkCase false [111;114;103;46;46] false false (None) (None)
   (mkResult [] [] [] [] [] [] [] [] HNone) (Some ErrInvalidChars);
  mkCase false [99;111;46;116;104] false false (None) (None)
   (mkResult [] [] [] [] [99;111;46;116;104] [] [] [] HNone) (Some ErrEmptyDomain);
  mkCase false [99;111;46;116;104;46] false false (None) (None)
   (mkResult [] [] [] [] [99;111;46;116;104] [] [] [] HNone) (Some ErrEmptyDomain);
  mkCase false [99;111;46;116;104;46;46] false false (None) (None)
   (mkResult [] [] [] [] [] [] [] [] HNone) (Some ErrInvalidChars);
  mkCase false [117;115;101;114;115;64;101;120;97;109;112;108;101;46;99;111;109] false false (None) (None)
   (mkResult [] [117;115;101;114;115] [] [101;120;97;109;112;108;101] [99;111;109] [101;120;97;109;112;108;101;46;99;111;109] [] [] HHostName) (None);
  mkCase false [109;97;105;108;116;111;58;117;115;101;114;115;64;101;120;97;109;112;108;101;46;99;111;109] false false (None) (None)
   (mkResult [] [109;97;105;108;116;111;58;117;115;101;114;115] [] [101;120;97;109;112;108;101] [99;111;109] [101;120;97;109;112;108;101;46;99;111;109] [] [] HHostName) (None);
  mkCase false [101;120;97;109;112;108;101;46;99;111;109;58;57;57;57] false false (None) (None)
   (mkResult [] [] [] [101;120;97;109;112;108;101] [99;111;109] [101;120;97;109;112;108;101;46;99;111;109] [57;57;57] [] HHostName) (None);
  mkCase false [101;120;97;109;112;108;101;46;99;111;109] false false (None) (None)
   (mkResult [] [] [] [101;120;97;109;112;108;101] [99;111;109] [101;120;97;109;112;108;101;46;99;111;109] [] [] HHostName) (None);
  mkCase false [50;53;53;46;50;53;53;46;101;120;97;109;112;108;101;46;99;111;109] false false (None) (None)
   (mkResult [] [] [50;53;53;46;50;53;53] [101;120;97;109;112;108;101] [99;111;109] [101;120;97;109;112;108;101;46;99;111;109] [] [] HHostName) (None);
  mkCase false [115;101;114;118;101;114;46;101;120;97;109;112;108;101;46;99;111;109;47;112;97;116;104] false false (None) (None)
   (mkResult [] [] [115;101;114;118;101;114] [101;120;97;109;112;108;101] [99;111;109] [101;120;97;109;112;108;101;46;99;111;109] [] [47;112;97;116;104] HHostName) (None);
  mkCase false [104;116;116;112;115;58;47;47;117;115;101;114;110;97;109;101;64;101;120;97;109;112;108;101;46;99;111;109] false false (None) (None)
   (mkResult [104;116;116;112;115;58;47;47] [117;115;101;114;110;97;109;101] [] [101;120;97;109;112;108;101] [99;111;109] [101;120;97;109;112;108;101;46;99;111;109] [] [] HHostName) (None);
  mkCase false [104;116;116;112;115;58;47;47;112;97;115;115;119;111;114;100;64;101;120;97;109;112;108;101;46;99;111;109] false false (None) (None)
   (mkResult [104;116;116;112;115;58;47;47] [112;97;115;115;119;111;114;100] [] [101;120;97;109;112;108;101] [99;111;109] [101;120;97;109;112;108;101;46;99;111;109] [] [] HHostName) (None);
  mkCase false [104;116;116;112;115;58;47;47;58;112;97;115;115;119;111;114;100;64;101;120;97;109;112;108;101;46;99;111;109] false false (None) (None)
   (mkResult [104;116;116;112;115;58;47;47] [58;112;97;115;115;119;111;114;100] [] [101;120;97;109;112;108;101] [99;111;109] [101;120;97;109;112;108;101;46;99;111;109] [] [] HHostName) (None);
  mkCase false [104;116;116;112;115;58;47;47;117;115;101;114;110;97;109;101;58;64;101;120;97;109;112;108;101;46;99;111;109] false false (None) (None)
   (mkResult [104;116;116;112;115;58;47;47] [117;115;101;114;110;97;109;101;58] [] [101;120;97;109;112;108;101] [99;111;109] [101;120;97;109;112;108;101;46;99;111;109] [] [] HHostName) (None);
  mkCase false [104;116;116;112;115;58;47;47;117;115;101;114;110;64;109;101;58;112;97;115;115;119;111;114;100;64;101;120;97;109;112;108;101;46;99;111;109] false false (None) (None)
   (mkResult [104;116;116;112;115;58;47;47] [117;115;101;114;110;64;109;101;58;112;97;115;115;119;111;114;100] [] [101;120;97;109;112;108;101] [99;111;109] [101;120;97;109;112;108;101;46;99;111;109] [] [] HHostName) (None);
  mkCase false [104;116;116;112;115;58;47;47;117;115;101;114;110;64;109;101;58;112;64;115;115;119;111;114;100;64;101;120;97;109;112;108;101;46;99;111;109] false false (None) (None)
   (mkResult [104;116;116;112;115;58;47;47] [117;115;101;114;110;64;109;101;58;112;64;115;115;119;111;114;100] [] [101;120;97;109;112;108;101] [99;111;109] [101;120;97;109;112;108;101;46;99;111;109] [] [] HHostName) (None);
  mkCase false [104;116;116;112;115;58;47;47;117;115;101;114;110;64;109;101;58;64;101;120;97;109;112;108;101;46;99;111;109] false false (None) (None)
   (mkResult [104;116;116;112;115;58;47;47] [117;115;101;114;110;64;109;101;58] [] [101;120;97;109;112;108;101] [99;111;109] [101;120;97;109;112;108;101;46;99;111;109] [] [] HHostName) (None);
  mkCase false [104;116;116;112;115;58;47;47;58;112;64;115;115;119;111;114;100;64;101;120;97;109;112;108;101;46;99;111;109] false false (None) (None)
   (mkResult [104;116;116;112;115;58;47;47] [58;112;64;115;115;119;111;114;100] [] [101;120;97;109;112;108;101] [99;111;109] [101;120;97;109;112;108;101;46;99;111;109] [] [] HHostName) (None);
  mkCase false [104;116;116;112;115;58;47;47;117;115;101;114;110;64;109;37;52;48;101;58;112;97;115;115;119;111;114;100;64;101;120;97;109;112;108;101;46;99;111;109;47;112;64;116;104;63;113;61;64;103;111] false false (None) (None)
   (mkResult [104;116;116;112;115;58;47;47] [117;115;101;114;110;64;109;37;52;48;101;58;112;97;115;115;119;111;114;100] [] [101;120;97;109;112;108;101] [99;111;109] [101;120;97;109;112;108;101;46;99;111;109] [] [47;112;64;116;104;63;113;61;64;103;111] HHostName) (None);
  mkCase false [49;50;55;46;48;46;48;46;49] false false (None) (None)
   (mkResult [] [] [] [49;50;55;46;48;46;48;46;49] [] [49;50;55;46;48;46;48;46;49] [] [] HIPv4) (None);
  mkCase false [104;116;116;112;58;47;47;49;50;55;46;48;46;48;46;49;58;53;48;48;48] false false (None) (None)
   (mkResult [104;116;116;112;58;47;47] [] [] [49;50;55;46;48;46;48;46;49] [] [49;50;55;46;48;46;48;46;49] [53;48;48;48] [] HIPv4) (None);
  mkCase false [49;50;55;239;188;142;48;227;128;130;48;239;189;161;49] false false (None) (None)
   (mkResult [] [] [] [49;50;55;239;188;142;48;227;128;130;48;239;189;161;49] [] [49;50;55;239;188;142;48;227;128;130;48;239;189;161;49] [] [] HIPv4) (None);
  mkCase false [104;116;116;112;58;47;47;49;50;55;239;188;142;48;227;128;130;48;239;189;161;49;58;53;48;48;48] false false (None) (None)
   (mkResult [104;116;116;112;58;47;47] [] [] [49;50;55;239;188;142;48;227;128;130;48;239;189;161;49] [] [49;50;55;239;188;142;48;227;128;130;48;239;189;161;49] [53;48;48;48] [] HIPv4) (None);
  mkCase false [91;97;66;99;68;58;101;102;48;49;58;50;51;52;53;58;54;55;56;57;58;97;66;99;68;58;101;102;48;49;58;50;51;52;53;58;54;55;56;57;93] false false (None) (None)
   (mkResult [] [] [] [97;66;99;68;58;101;102;48;49;58;50;51;52;53;58;54;55;56;57;58;97;66;99;68;58;101;102;48;49;58;50;51;52;53;58;54;55;56;57] [] [97;66;99;68;58;101;102;48;49;58;50;51;52;53;58;54;55;56;57;58;97;66;99;68;58;101;102;48;49;58;50;51;52;53;58;54;55;56;57] [] [] HIPv6) (None);
  mkCase false [104;116;116;112;58;47;47;91;97;66;99;68;58;101;102;48;49;58;50;51;52;53;58;54;55;56;57;58;97;66;99;68;58;101;102;48;49;58;50;51;52;53;58;54;55;56;57;93;58;53;48;48;48] false false (None) (None)
   (mkResult [104;116;116;112;58;47;47] [] [] [97;66;99;68;58;101;102;48;49;58;50;51;52;53;58;54;55;56;57;58;97;66;99;68;58;101;102;48;49;58;50;51;52;53;58;54;55;56;57] [] [97;66;99;68;58;101;102;48;49;58;50;51;52;53;58;54;55;56;57;58;97;66;99;68;58;101;102;48;49;58;50;51;52;53;58;54;55;56;57] [53;48;48;48] [] HIPv6) (None);
  mkCase false [104;116;116;112;58;47;47;91;97;66;99;68;58;101;102;48;49;58;50;51;52;53;58;54;55;56;57;58;97;66;99;68;58;101;102;48;49;58;49;50;55;46;48;46;48;46;49;93;58;53;48;48;48] false false (None) (None)
   (mkResult [104;116;116;112;58;47;47] [] [] [97;66;99;68;58;101;102;48;49;58;50;51;52;53;58;54;55;56;57;58;97;66;99;68;58;101;102;48;49;58;49;50;55;46;48;46;48;46;49] [] [97;66;99;68;58;101;102;48;49;58;50;51;52;53;58;54;55;56;57;58;97;66;99;68;58;101;102;48;49;58;49;50;55;46;48;46;48;46;49] [53;48;48;48] [] HIPv6) (None);
  mkCase false [104;116;116;112;58;47;47;91;97;66;99;68;58;101;102;48;49;58;50;51;52;53;58;54;55;56;57;58;97;66;99;68;58;101;102;48;49;58;49;50;55;239;188;142;48;227;128;130;48;239;189;161;49;93;58;53;48;48;48] false false (None) (None)
   (mkResult [104;116;116;112;58;47;47] [] [] [97;66;99;68;58;101;102;48;49;58;50;51;52;53;58;54;55;56;57;58;97;66;99;68;58;101;102;48;49;58;49;50;55;239;188;142;48;227;128;130;48;239;189;161;49] [] [97;66;99;68;58;101;102;48;49;58;50;51;52;53;58;54;55;56;57;58;97;66;99;68;58;101;102;48;49;58;49;50;55;239;188;142;48;227;128;130;48;239;189;161;49] [53;48;48;48] [] HIPv6) (None);
  mkCase false [104;116;116;112;58;47;47;91;58;58;50;51;52;53;58;54;55;56;57;58;97;66;99;68;58;101;102;48;49;58;50;51;52;53;58;54;55;56;93;58;53;48;48;48] false false (None) (None)
   (mkResult [104;116;116;112;58;47;47] [] [] [58;58;50;51;52;53;58;54;55;56;57;58;97;66;99;68;58;101;102;48;49;58;50;51;52;53;58;54;55;56] [] [58;58;50;51;52;53;58;54;55;56;57;58;97;66;99;68;58;101;102;48;49;58;50;51;52;53;58;54;55;56] [53;48;48;48] [] HIPv6) (None);
  mkCase false [104;116;116;112;58;47;47;91;58;58;93;58;53;48;48;48] false false (None) (None)
   (mkResult [104;116;116;112;58;47;47] [] [] [58;58] [] [58;58] [53;48;48;48] [] HIPv6) (None);
  mkCase false [104;116;116;112;58;47;47;91;97;66;99;68;58;101;102;48;49;58;50;51;52;53;58;54;55;56;57;58;97;66;99;68;58;101;102;48;49;58;58;93;58;53;48;48;48] false false (None) (None)
   (mkResult [104;116;116;112;58;47;47] [] [] [97;66;99;68;58;101;102;48;49;58;50;51;52;53;58;54;55;56;57;58;97;66;99;68;58;101;102;48;49;58;58] [] [97;66;99;68;58;101;102;48;49;58;50;51;52;53;58;54;55;56;57;58;97;66;99;68;58;101;102;48;49;58;58] [53;48;48;48] [] HIPv6) (None);
  mkCase false [109;97;112;115;46;103;111;111;103;108;101;46;99;111;109;46;115;103] true false (None) (None)
   (mkResult [] [] [] [103;111;111;103;108;101] [99;111;109;46;115;103] [103;111;111;103;108;101;46;99;111;109;46;115;103] [] [] HHostName) (None);
  mkCase false [101;120;97;109;112;108;101;46;122;97;47;101;110] true false (None) (None)
   (mkResult [] [] [] [122;97] [] [] [] [47;101;110] HHostName) (None);
  mkCase false [104;116;116;112;115;58;47;47;101;120;97;109;112;108;101;46;122;97;47;101;110] true false (None) (None)
   (mkResult [104;116;116;112;115;58;47;47] [] [] [122;97] [] [] [] [47;101;110] HHostName) (None);
  mkCase true [104;116;116;112;115;58;47;47;98;114;98;46;105;46;97;109;46;103;111;105;110;103;46;116;111;46;98;101;46;98;108;111;103;115;112;111;116;46;99;111;109;58;53;48;48;48;47;97;47;98;47;99;47;100;46;116;120;116;63;105;100;61;52;50] false false (None) (None)
   (mkResult [104;116;116;112;115;58;47;47] [] [98;114;98;46;105;46;97;109;46;103;111;105;110;103;46;116;111] [98;101] [98;108;111;103;115;112;111;116;46;99;111;109] [98;101;46;98;108;111;103;115;112;111;116;46;99;111;109] [53;48;48;48] [47;97;47;98;47;99;47;100;46;116;120;116;63;105;100;61;52;50] HHostName) (None);
  mkCase true [103;108;111;98;97;108;46;112;114;111;100;46;102;97;115;116;108;121;46;110;101;116] false false (None) (None)
   (mkResult [] [] [] [] [103;108;111;98;97;108;46;112;114;111;100;46;102;97;115;116;108;121;46;110;101;116] [] [] [] HNone) (Some ErrEmptyDomain);
  mkCase false [104;116;116;112;58;47;47;49;50;55;46;48;46;48;46;49;46;46] false false (None) (None)
   (mkResult [104;116;116;112;58;47;47] [] [] [49;50;55;46;48;46;48;46;49] [] [49;50;55;46;48;46;48;46;49] [] [] HIPv4) (None);
  mkCase false [104;116;116;112;58;47;47;49;50;55;239;188;142;48;227;128;130;48;239;189;161;49;46;46;58;53;48;48;48] false false (None) (None)
   (mkResult [104;116;116;112;58;47;47] [] [] [49;50;55;239;188;142;48;227;128;130;48;239;189;161;49] [] [49;50;55;239;188;142;48;227;128;130;48;239;189;161;49] [53;48;48;48] [] HIPv4) (None);
  mkCase false [104;116;116;112;58;47;47;49;50;55;46;48;46;48;46;49;32;32] false false (None) (None)
   (mkResult [104;116;116;112;58;47;47] [] [] [49;50;55;46;48;46;48;46;49] [] [49;50;55;46;48;46;48;46;49] [] [] HIPv4) (None);
  mkCase false [104;116;116;112;58;47;47;91;97;66;99;68;58;101;102;48;49;58;50;51;52;53;58;54;55;56;57;58;97;66;99;68;58;101;102;48;49;58;50;51;52;53;58;54;55;56;57;93;32;32] false false (None) (None)
   (mkResult [104;116;116;112;58;47;47] [] [] [97;66;99;68;58;101;102;48;49;58;50;51;52;53;58;54;55;56;57;58;97;66;99;68;58;101;102;48;49;58;50;51;52;53;58;54;55;56;57] [] [97;66;99;68;58;101;102;48;49;58;50;51;52;53;58;54;55;56;57;58;97;66;99;68;58;101;102;48;49;58;50;51;52;53;58;54;55;56;57] [] [] HIPv6) (None);
  mkCase false [108;111;99;97;108;104;111;115;116;46;227;128;130] false false (None) (None)
   (mkResult [] [] [] [108;111;99;97;108;104;111;115;116] [] [] [] [] HHostName) (None);
  mkCase false [104;116;116;112;115;58;47;47;98;114;98;46;105;227;128;130;97;109;239;188;142;103;111;105;110;103;239;189;161;116;111;239;188;142;98;101;227;128;130;97;239;189;161;102;107;239;188;142;46;227;128;130] false false (None) (None)
   (mkResult [104;116;116;112;115;58;47;47] [] [98;114;98;46;105;227;128;130;97;109;239;188;142;103;111;105;110;103;239;189;161;116;111] [98;101] [97;239;189;161;102;107] [98;101;227;128;130;97;239;189;161;102;107] [] [] HHostName) (None);
  mkCase false [104;116;116;112;115;58;47;47;98;114;98;46;105;227;128;130;97;109;239;188;142;103;111;105;110;103;239;189;161;116;111;239;188;142;98;101;227;128;130;97;239;189;161;102;107] false false (None) (None)
   (mkResult [104;116;116;112;115;58;47;47] [] [98;114;98;46;105;227;128;130;97;109;239;188;142;103;111;105;110;103;239;189;161;116;111] [98;101] [97;239;189;161;102;107] [98;101;227;128;130;97;239;189;161;102;107] [] [] HHostName) (None);
  mkCase false [97;239;189;161;102;107] false false (None) (None)
   (mkResult [] [] [] [] [97;239;189;161;102;107] [] [] [] HNone) (Some ErrEmptyDomain);
  mkCase false [32;104;116;116;112;115;58;47;47;98;114;98;46;105;227;128;130;97;109;239;188;142;103;111;105;110;103;239;189;161;116;111;239;188;142;98;101;227;128;130;97;239;189;161;102;107;47;97;47;98;47;99;46;32;239;189;161;32] false false (None) (None)
   (mkResult [104;116;116;112;115;58;47;47] [] [98;114;98;46;105;227;128;130;97;109;239;188;142;103;111;105;110;103;239;189;161;116;111] [98;101] [97;239;189;161;102;107] [98;101;227;128;130;97;239;189;161;102;107] [] [47;97;47;98;47;99;46;32;239;189;161] HHostName) (None);
  mkCase false [32;104;116;116;112;115;58;47;47;98;114;98;46;105;227;128;130;97;109;239;188;142;103;111;105;110;103;239;189;161;116;111;239;188;142;98;101;227;128;130;97;239;189;161;102;107;47;97;47;66;47;99;46;32;239;189;161;32] false true (None) (Some [98;114;98;46;105;46;97;109;46;103;111;105;110;103;46;116;111;46;98;101;46;97;46;102;107])
   (mkResult [104;116;116;112;115;58;47;47] [] [98;114;98;46;105;46;97;109;46;103;111;105;110;103;46;116;111] [98;101] [97;46;102;107] [98;101;46;97;46;102;107] [] [47;97;47;66;47;99;46;32;239;189;161] HHostName) (None);
  mkCase false [104;116;116;112;58;47;47;49;46;49;46;49;46;49;32;38;64;50;46;50;46;50;46;50;58;51;51;47;52;46;52;46;52;46;52;63;49;46;49;46;49;46;49;35;32;64;51;46;51;46;51;46;51;47] false false (None) (None)
   (mkResult [104;116;116;112;58;47;47] [49;46;49;46;49;46;49;32;38] [] [50;46;50;46;50;46;50] [] [50;46;50;46;50;46;50] [51;51] [47;52;46;52;46;52;46;52;63;49;46;49;46;49;46;49;35;32;64;51;46;51;46;51;46;51;47] HIPv4) (None);
  mkCase false [101;120;97;109;112;108;101;46;122;97;46;47;101;110] false false (None) (None)
   (mkResult [] [] [101;120;97;109;112;108;101] [122;97] [] [] [] [47;101;110] HHostName) (None);
  mkCase false [101;120;97;109;112;108;101;46;122;97;46;227;128;130;47;101;110] false false (None) (None)
   (mkResult [] [] [101;120;97;109;112;108;101] [122;97] [] [] [] [47;101;110] HHostName) (None);
  mkCase false [108;111;99;97;108;104;111;115;116;33] false false (None) (None)
   (mkResult [] [] [] [] [] [] [] [] HNone) (Some ErrInvalidChars);
  mkCase false [108;111;99;97;108;104;111;115;116;43] false false (None) (None)
   (mkResult [] [] [] [] [] [] [] [] HNone) (Some ErrInvalidChars);
  mkCase false [108;111;99;97;108;104;111;115;116;45] false false (None) (None)
   (mkResult [] [] [] [] [] [] [] [] HNone) (Some ErrInvalidChars);
  mkCase false [] false false (None) (None)
   (mkResult [] [] [] [] [] [] [] [] HNone) (Some ErrEmptyDomain);
  mkCase false [104;116;116;112;115;58;47;47] false false (None) (None)
   (mkResult [104;116;116;112;115;58;47;47] [] [] [] [] [] [] [] HNone) (Some ErrEmptyDomain);
  mkCase false [49;98;58;47;47;101;120;97;109;112;108;101;46;99;111;109] false false (None) (None)
   (mkResult [] [] [] [] [] [] [] [] HNone) (Some ErrInvalidPort);
  mkCase false [109;97;112;115;46;103;111;111;103;108;101;46;99;111;109;46;115;103;58;56;53;56;57;57;51;52;53;57;50;47;116;104;105;115;47;112;97;116;104;47;119;105;108;108;47;110;111;116;47;98;101;47;112;97;114;115;101;100] false false (None) (None)
   (mkResult [] [] [] [] [] [] [] [] HNone) (Some ErrInvalidPort);
  mkCase false [104;116;116;112;58;47;47;46;227;128;130;49;50;55;46;48;46;48;46;49] false false (None) (None)
   (mkResult [104;116;116;112;58;47;47] [] [] [] [] [] [] [] HNone) (Some ErrInvalidChars);
  mkCase false [104;116;116;112;58;47;47;46;227;128;130;91;97;66;99;68;58;101;102;48;49;58;50;51;52;53;58;54;55;56;57;58;97;66;99;68;58;101;102;48;49;58;50;51;52;53;58;54;55;56;57;93] false false (None) (None)
   (mkResult [104;116;116;112;58;47;47] [] [] [] [] [] [] [] HNone) (Some ErrOpeningBracket);
  mkCase false [104;116;116;112;58;47;47;91;97;66;99;68;58;101;102;48;49;58;50;51;52;53;58;54;55;56;57;58;97;66;99;68;58;101;102;48;49;58;50;51;52;53;58;54;55;56;57;93;46;46] false false (None) (None)
   (mkResult [104;116;116;112;58;47;47] [] [] [] [] [] [] [] HNone) (Some ErrTrailingAfterIPv6);
  mkCase false [104;116;116;112;58;47;47;101;120;97;109;112;108;101;46;99;111;109;32;58;53;48] false false (None) (None)
   (mkResult [104;116;116;112;58;47;47] [] [] [] [] [] [53;48] [] HNone) (Some ErrInvalidChars);
  mkCase false [104;116;116;112;58;47;47;32;32;49;50;55;46;48;46;48;46;49] false false (None) (None)
   (mkResult [104;116;116;112;58;47;47] [] [] [] [] [] [] [] HNone) (Some ErrInvalidChars);
  mkCase false [104;116;116;112;58;47;47;49;50;55;46;48;46;48;46;49;32;32;58;53;48] false false (None) (None)
   (mkResult [104;116;116;112;58;47;47] [] [] [] [] [] [53;48] [] HNone) (Some ErrInvalidChars);
  mkCase false [104;116;116;112;58;47;47;32;32;91;97;66;99;68;58;101;102;48;49;58;50;51;52;53;58;54;55;56;57;58;97;66;99;68;58;101;102;48;49;58;50;51;52;53;58;54;55;56;57;93] false false (None) (None)
   (mkResult [104;116;116;112;58;47;47] [] [] [] [] [] [] [] HNone) (Some ErrOpeningBracket);
  mkCase false [104;116;116;112;58;47;47;91;97;66;99;68;58;101;102;48;49;58;50;51;52;53;58;54;55;56;57;58;97;66;99;68;58;101;102;48;49;58;50;51;52;53;58;54;55;56;57;93;32;32;58;53;48] false false (None) (None)
   (mkResult [104;116;116;112;58;47;47] [] [] [] [] [] [] [] HNone) (Some ErrTrailingAfterIPv6);
  mkCase false [104;116;116;112;115;58;47;47;98;114;98;46;105;227;128;130;97;109;239;188;142;103;111;105;110;103;239;189;161;116;111;239;188;142;98;101;227;128;130;97;239;189;161;227;128;130;102;107] false false (None) (None)
   (mkResult [104;116;116;112;115;58;47;47] [] [] [] [] [] [] [] HNone) (Some ErrConsecutiveSeparators);
  mkCase false [101;120;97;109;112;108;101;46;227;128;130;122;97;47;101;110] false false (None) (None)
   (mkResult [] [] [] [] [] [] [] [47;101;110] HNone) (Some ErrConsecutiveSeparators);
  mkCase false [46;227;128;130;97;239;189;161;102;107] false false (None) (None)
   (mkResult [] [] [] [] [] [] [] [] HNone) (Some ErrInvalidChars);
  mkCase false [104;116;116;112;115;58;47;47;98;114;98;46;105;227;128;130;97;109;239;188;142;103;111;105;110;103;239;189;161;116;111;239;188;142;98;101;46;227;128;130;97;239;189;161;102;107] false false (None) (None)
   (mkResult [104;116;116;112;115;58;47;47] [] [] [] [] [] [] [] HNone) (Some ErrInvalidChars);
  mkCase false [104;116;116;112;115;58;47;47;98;114;98;46;105;227;128;130;97;109;239;188;142;103;111;105;110;103;239;189;161;116;111;46;239;188;142;98;101;227;128;130;97;239;189;161;102;107] false false (None) (None)
   (mkResult [104;116;116;112;115;58;47;47] [] [] [] [] [] [] [] HNone) (Some ErrInvalidChars);
  mkCase false [104;116;116;112;115;58;47;47;98;114;98;46;105;227;128;130;46;97;109;46;239;188;142;103;111;105;110;103;239;189;161;116;111;239;188;142;98;101;227;128;130;97;239;189;161;102;107] false false (None) (None)
   (mkResult [104;116;116;112;115;58;47;47] [] [] [] [] [] [] [] HNone) (Some ErrInvalidChars);
  mkCase false [104;116;116;112;115;58;47;47;239;188;142;101;120;97;109;112;108;101;46;99;111;109] false false (None) (None)
   (mkResult [104;116;116;112;115;58;47;47] [] [] [] [] [] [] [] HNone) (Some ErrInvalidChars);
  mkCase false [47;47;115;101;114;118;101;114;46;101;120;97;109;112;108;101;46;99;111;109;47;112;97;116;104] false false (None) (None)
   (mkResult [47;47] [] [115;101;114;118;101;114] [101;120;97;109;112;108;101] [99;111;109] [101;120;97;109;112;108;101;46;99;111;109] [] [47;112;97;116;104] HHostName) (None);
  mkCase false [104;116;116;112;58;47;47;116;101;109;97;115;101;107] false false (None) (None)
   (mkResult [104;116;116;112;58;47;47] [] [] [] [116;101;109;97;115;101;107] [] [] [] HNone) (Some ErrEmptyDomain);
  mkCase false [104;116;116;112;58;47;47;116;101;109;97;115;101;107;46;116;104;105;115;45;116;108;100;45;99;97;110;110;111;116;45;98;101;45;114;101;97;108] false false (None) (None)
   (mkResult [104;116;116;112;58;47;47] [] [116;101;109;97;115;101;107] [116;104;105;115;45;116;108;100;45;99;97;110;110;111;116;45;98;101;45;114;101;97;108] [] [] [] [] HHostName) (None);
  mkCase false [104;116;116;112;58;47;47;116;101;109;97;115;101;107;46;116;101;109;97;115;101;107;46;116;104;105;115;45;116;108;100;45;99;97;110;110;111;116;45;98;101;45;114;101;97;108] false false (None) (None)
   (mkResult [104;116;116;112;58;47;47] [] [116;101;109;97;115;101;107;46;116;101;109;97;115;101;107] [116;104;105;115;45;116;108;100;45;99;97;110;110;111;116;45;98;101;45;114;101;97;108] [] [] [] [] HHostName) (None);
  mkCase false [104;116;116;112;58;47;47;49;50;55;46;48;46;48;46;50;53;54] false false (None) (None)
   (mkResult [104;116;116;112;58;47;47] [] [49;50;55;46;48;46;48] [50;53;54] [] [] [] [] HHostName) (None);
  mkCase false [104;116;116;112;58;47;47;49;50;55;239;188;142;48;227;128;130;48;239;189;161;50;53;54;58;53;48;48;48] false false (None) (None)
   (mkResult [104;116;116;112;58;47;47] [] [49;50;55;239;188;142;48;227;128;130;48] [50;53;54] [] [] [53;48;48;48] [] HHostName) (None);
  mkCase false [104;116;116;112;58;47;47;49;57;50;46;49;54;56;46;48;49;46;49;58;53;48;48;48] false false (None) (None)
   (mkResult [104;116;116;112;58;47;47] [] [49;57;50;46;49;54;56;46;48;49] [49] [] [] [53;48;48;48] [] HHostName) (None);
  mkCase false [104;116;116;112;58;47;47;97;58;98;64;120;110;45;45;116;117;98;45;49;109;57;100;49;53;115;102;107;107;104;115;105;102;115;98;113;121;103;121;117;106;106;114;119;54;48;46;99;111;109] false false (Some [105;100;110;97;58;32;105;110;118;97;108;105;100;32;108;97;98;101;108;32;34;116;117;98;45;49;109;57;100;49;53;115;102;107;107;104;115;105;102;115;98;113;121;103;121;117;106;106;114;119;54;48;34]) (None)
   (mkResult [104;116;116;112;58;47;47] [97;58;98] [] [] [] [] [] [] HNone) (Some (ErrIdna [105;100;110;97;58;32;105;110;118;97;108;105;100;32;108;97;98;101;108;32;34;116;117;98;45;49;109;57;100;49;53;115;102;107;107;104;115;105;102;115;98;113;121;103;121;117;106;106;114;119;54;48;34]));
  mkCase false [104;116;116;112;58;47;47;91;97;66;99;68;58;101;102;48;49;58;50;51;52;53;58;54;55;56;57;58;97;66;99;68;58;101;102;48;49;58;50;51;52;53;58;54;55;56;57;58;53;48;48;48] false false (None) (None)
   (mkResult [104;116;116;112;58;47;47] [] [] [] [] [] [] [] HNone) (Some ErrIncompleteBrackets);
  mkCase false [104;116;116;112;58;47;47;91;97;66;99;68;58;101;102;48;49;58;50;51;52;53;58;54;55;56;57;58;97;66;99;68;58;58;58;93;58;53;48;48;48] false false (None) (None)
   (mkResult [104;116;116;112;58;47;47] [] [] [] [] [] [] [] HNone) (Some ErrInvalidIPv6);
  mkCase false [104;116;116;112;58;47;47;91;97;66;99;68;58;101;102;48;49;58;50;51;52;53;58;54;55;56;57;58;97;66;99;68;58;101;102;48;49;58;50;51;52;53;58;102;102;102;102;102;102;102;102;102;102;102;102;102;102;102;102;102;93;58;53;48;48;48] false false (None) (None)
   (mkResult [104;116;116;112;58;47;47] [] [] [] [] [] [] [] HNone) (Some ErrInvalidIPv6);
  mkCase false [104;116;116;112;58;47;47;91;97;66;99;68;58;101;102;48;49;58;50;51;52;53;58;54;55;56;57;58;97;66;99;68;58;101;102;48;49;58;49;50;55;239;188;142;50;53;54;227;128;130;48;239;189;161;49;93;58;53;48;48;48] false false (None) (None)
   (mkResult [104;116;116;112;58;47;47] [] [] [] [] [] [] [] HNone) (Some ErrInvalidIPv6);
  mkCase false [104;116;116;112;58;47;47;91;58;58;97;66;99;68;58;101;102;48;49;58;50;51;52;53;58;54;55;56;57;58;97;66;99;68;58;101;102;48;49;58;50;51;52;53;58;49;50;55;46;50;53;53;46;48;46;49;93;58;53;48;48;48] false false (None) (None)
   (mkResult [104;116;116;112;58;47;47] [] [] [] [] [] [] [] HNone) (Some ErrInvalidIPv6);
  mkCase false [91;49;58;58;49;58;58;49;58;49;58;49;58;49;58;49;58;49;93] false false (None) (None)
   (mkResult [] [] [] [] [] [] [] [] HNone) (Some ErrInvalidIPv6);
  mkCase false [91;49;58;49;58;49;58;49;58;49;58;49;58;49;58;49;58;58;58;93] false false (None) (None)
   (mkResult [] [] [] [] [] [] [] [] HNone) (Some ErrInvalidIPv6);
  mkCase false [104;116;116;112;58;47;47;91] false false (None) (None)
   (mkResult [104;116;116;112;58;47;47] [] [] [] [] [] [] [] HNone) (Some ErrIncompleteBrackets);
  mkCase false [104;116;116;112;58;47;47;97;91] false false (None) (None)
   (mkResult [104;116;116;112;58;47;47] [] [] [] [] [] [] [] HNone) (Some ErrOpeningBracket);
  mkCase false [104;116;116;112;58;47;47;93] false false (None) (None)
   (mkResult [104;116;116;112;58;47;47] [] [] [] [] [] [] [] HNone) (Some ErrClosingBracket);
  mkCase false [104;116;116;112;58;47;47;97;93] false false (None) (None)
   (mkResult [104;116;116;112;58;47;47] [] [] [] [] [] [] [] HNone) (Some ErrClosingBracket);
  mkCase false [104;116;116;112;58;47;47;93;91] false false (None) (None)
   (mkResult [104;116;116;112;58;47;47] [] [] [] [] [] [] [] HNone) (Some ErrClosingBracket);
  mkCase false [104;116;116;112;58;47;47;97;93;91] false false (None) (None)
   (mkResult [104;116;116;112;58;47;47] [] [] [] [] [] [] [] HNone) (Some ErrClosingBracket);
  mkCase false [104;116;116;112;58;47;47;91;93] false false (None) (None)
   (mkResult [104;116;116;112;58;47;47] [] [] [] [] [] [] [] HNone) (Some ErrInvalidIPv6);
  mkCase false [104;116;116;112;58;47;47;97;91;93] false false (None) (None)
   (mkResult [104;116;116;112;58;47;47] [] [] [] [] [] [] [] HNone) (Some ErrOpeningBracket);
  mkCase false [104;116;116;112;58;47;47;97;91;49;50;55;46;48;46;48;46;49;93] false false (None) (None)
   (mkResult [104;116;116;112;58;47;47] [] [] [] [] [] [] [] HNone) (Some ErrOpeningBracket);
  mkCase false [104;116;116;112;58;47;47;97;91;97;66;99;68;58;101;102;48;49;58;50;51;52;53;58;54;55;56;57;58;97;66;99;68;58;101;102;48;49;58;49;50;55;239;188;142;50;53;53;227;128;130;48;239;189;161;49;93] false false (None) (None)
   (mkResult [104;116;116;112;58;47;47] [] [] [] [] [] [] [] HNone) (Some ErrOpeningBracket);
  mkCase false [104;116;116;112;58;47;47;91;49;50;55;46;48;46;48;46;49;93] false false (None) (None)
   (mkResult [104;116;116;112;58;47;47] [] [] [] [] [] [] [] HNone) (Some ErrInvalidIPv6);
  mkCase false [104;116;116;112;58;47;47;37;55;56;110;45;45;48;46;101;120;97;109;112;108;101;46;99;111;109] false false (Some [105;100;110;97;58;32;105;110;118;97;108;105;100;32;108;97;98;101;108;32;34;48;34]) (None)
   (mkResult [104;116;116;112;58;47;47] [] [] [] [] [] [] [] HNone) (Some (ErrIdna [105;100;110;97;58;32;105;110;118;97;108;105;100;32;108;97;98;101;108;32;34;48;34]));
  mkCase false [104;116;116;112;58;47;47;37;55;56;110;45;45;48;46;101;120;97;109;112;108;101;46;99;111;109] false true (None) (None)
   (mkResult [104;116;116;112;58;47;47] [] [] [] [] [] [] [] HNone) (Some ErrEmptyDomain);
  mkCase false [104;116;116;112;58;47;47;91;45;48;46;48;46;48;46;48;93] false false (None) (None)
   (mkResult [104;116;116;112;58;47;47] [] [] [] [] [] [] [] HNone) (Some ErrInvalidIPv6);
  mkCase false [104;116;116;112;58;47;47;91;48;46;45;49;46;48;46;48;93] false false (None) (None)
   (mkResult [104;116;116;112;58;47;47] [] [] [] [] [] [] [] HNone) (Some ErrInvalidIPv6);
  mkCase false [104;116;116;112;58;47;47;91;48;46;48;46;45;50;46;48;93] false false (None) (None)
   (mkResult [104;116;116;112;58;47;47] [] [] [] [] [] [] [] HNone) (Some ErrInvalidIPv6);
  mkCase false [104;116;116;112;58;47;47;91;48;46;48;46;48;46;45;51;93] false false (None) (None)
   (mkResult [104;116;116;112;58;47;47] [] [] [] [] [] [] [] HNone) (Some ErrInvalidIPv6);
  mkCase false [104;116;116;112;58;47;47;91;49;50;55;46;48;46;48;46;50;53;54;93] false false (None) (None)
   (mkResult [104;116;116;112;58;47;47] [] [] [] [] [] [] [] HNone) (Some ErrInvalidIPv6);
  mkCase false [104;116;116;112;58;47;47;91;97;98;99;93] false false (None) (None)
   (mkResult [104;116;116;112;58;47;47] [] [] [] [] [] [] [] HNone) (Some ErrInvalidIPv6);
  mkCase false [104;116;116;112;58;47;47;91;49;50;51;58;93] false false (None) (None)
   (mkResult [104;116;116;112;58;47;47] [] [] [] [] [] [] [] HNone) (Some ErrInvalidIPv6);
  mkCase false [104;116;116;112;58;47;47;91;102;101;56;48;58;58;49;37;108;111;48;93] false false (None) (None)
   (mkResult [104;116;116;112;58;47;47] [] [] [] [] [] [] [] HNone) (Some ErrInvalidIPv6);
  mkCase false [104;116;116;112;58;47;47;91;102;101;56;48;58;58;49;37;57;49;49;93] false false (None) (None)
   (mkResult [104;116;116;112;58;47;47] [] [] [] [] [] [] [] HNone) (Some ErrInvalidIPv6);
  mkCase false [104;116;116;112;58;47;47;91;97;49;58;97;50;58;97;51;58;97;52;58;58;98;49;58;98;50;58;98;51;58;98;52;93] false false (None) (None)
   (mkResult [104;116;116;112;58;47;47] [] [] [] [] [] [] [] HNone) (Some ErrInvalidIPv6);
  mkCase false [104;116;116;112;58;47;47;91;49;50;55;46;48;48;49;46;48;48;50;46;48;48;51;93] false false (None) (None)
   (mkResult [104;116;116;112;58;47;47] [] [] [] [] [] [] [] HNone) (Some ErrInvalidIPv6);
  mkCase false [104;116;116;112;58;47;47;91;58;58;102;102;102;102;58;49;50;55;46;48;48;49;46;48;48;50;46;48;48;51;93] false false (None) (None)
   (mkResult [104;116;116;112;58;47;47] [] [] [] [] [] [] [] HNone) (Some ErrInvalidIPv6);
  mkCase false [104;116;116;112;58;47;47;91;49;50;51;46;48;48;48;46;48;48;48;46;48;48;48;93] false false (None) (None)
   (mkResult [104;116;116;112;58;47;47] [] [] [] [] [] [] [] HNone) (Some ErrInvalidIPv6);
  mkCase false [104;116;116;112;58;47;47;91;49;46;50;46;46;52;93] false false (None) (None)
   (mkResult [104;116;116;112;58;47;47] [] [] [] [] [] [] [] HNone) (Some ErrInvalidIPv6);
  mkCase false [104;116;116;112;58;47;47;91;48;49;50;51;46;48;46;48;46;49;93] false false (None) (None)
   (mkResult [104;116;116;112;58;47;47] [] [] [] [] [] [] [] HNone) (Some ErrInvalidIPv6);
  mkCase false [103;105;116;43;115;115;104;58;47;47;119;119;119;46;33;101;120;97;109;112;108;101;46;99;111;109;47] false false (None) (None)
   (mkResult [103;105;116;43;115;115;104;58;47;47] [] [] [] [] [] [] [47] HNone) (Some ErrInvalidChars);
  mkCase false [104;116;116;112;115;58;47;47;240;157;150;138;240;157;150;157;240;157;150;134;240;157;150;146;240;157;150;149;240;157;150;145;240;157;150;138;46;240;157;150;136;240;157;150;148;240;157;150;146;46;240;157;150;152;240;157;150;140] false true (None) (Some [101;120;97;109;112;108;101;46;99;111;109;46;115;103])
   (mkResult [104;116;116;112;115;58;47;47] [] [] [101;120;97;109;112;108;101] [99;111;109;46;115;103] [101;120;97;109;112;108;101;46;99;111;109;46;115;103] [] [] HHostName) (None);
  mkCase false [104;116;116;112;58;47;47;101;120;97;109;112;108;101;46;230;149;142;232;130;178;46;104;107;47;229;156;176;229;155;190;47;65;47;98;47;67;63;231;188;150;229;143;183;61;52;50] false true (None) (Some [101;120;97;109;112;108;101;46;120;110;45;45;108;99;118;114;51;50;100;46;104;107])
   (mkResult [104;116;116;112;58;47;47] [] [] [101;120;97;109;112;108;101] [120;110;45;45;108;99;118;114;51;50;100;46;104;107] [101;120;97;109;112;108;101;46;120;110;45;45;108;99;118;114;51;50;100;46;104;107] [] [47;229;156;176;229;155;190;47;65;47;98;47;67;63;231;188;150;229;143;183;61;52;50] HHostName) (None);
  mkCase false [104;116;116;112;58;47;47;101;120;97;109;112;108;101;46;208;190;208;177;209;128;46;209;129;209;128;208;177;47;229;156;176;229;155;190;47;65;47;98;47;67;63;231;188;150;229;143;183;61;52;50] false true (None) (Some [101;120;97;109;112;108;101;46;120;110;45;45;57;48;97;122;104;46;120;110;45;45;57;48;97;51;97;99])
   (mkResult [104;116;116;112;58;47;47] [] [] [101;120;97;109;112;108;101] [120;110;45;45;57;48;97;122;104;46;120;110;45;45;57;48;97;51;97;99] [101;120;97;109;112;108;101;46;120;110;45;45;57;48;97;122;104;46;120;110;45;45;57;48;97;51;97;99] [] [47;229;156;176;229;155;190;47;65;47;98;47;67;63;231;188;150;229;143;183;61;52;50] HHostName) (None);
  mkCase false [104;116;116;112;58;47;47;101;120;97;109;112;108;101;46;230;149;142;232;130;178;46;104;107;47;229;156;176;229;155;190;47;65;47;98;47;67;63;231;188;150;229;143;183;61;52;50] false false (None) (None)
   (mkResult [104;116;116;112;58;47;47] [] [] [101;120;97;109;112;108;101] [230;149;142;232;130;178;46;104;107] [101;120;97;109;112;108;101;46;230;149;142;232;130;178;46;104;107] [] [47;229;156;176;229;155;190;47;65;47;98;47;67;63;231;188;150;229;143;183;61;52;50] HHostName) (None);
  mkCase false [104;116;116;112;58;47;47;101;120;97;109;112;108;101;46;208;190;208;177;209;128;46;209;129;209;128;208;177;47;229;156;176;229;155;190;47;65;47;98;47;67;63;231;188;150;229;143;183;61;52;50] false false (None) (None)
   (mkResult [104;116;116;112;58;47;47] [] [] [101;120;97;109;112;108;101] [208;190;208;177;209;128;46;209;129;209;128;208;177] [101;120;97;109;112;108;101;46;208;190;208;177;209;128;46;209;129;209;128;208;177] [] [47;229;156;176;229;155;190;47;65;47;98;47;67;63;231;188;150;229;143;183;61;52;50] HHostName) (None);
  mkCase false [104;116;116;112;58;47;47;101;120;97;109;112;108;101;46;120;110;45;45;99;105;113;112;110;46;104;107;47;229;156;176;229;155;190;47;65;47;98;47;67;63;231;188;150;229;143;183;61;52;50] false true (None) (Some [101;120;97;109;112;108;101;46;120;110;45;45;99;105;113;112;110;46;104;107])
   (mkResult [104;116;116;112;58;47;47] [] [] [101;120;97;109;112;108;101] [120;110;45;45;99;105;113;112;110;46;104;107] [101;120;97;109;112;108;101;46;120;110;45;45;99;105;113;112;110;46;104;107] [] [47;229;156;176;229;155;190;47;65;47;98;47;67;63;231;188;150;229;143;183;61;52;50] HHostName) (None);
  mkCase false [104;116;116;112;58;47;47;101;120;97;109;112;108;101;46;120;110;45;45;57;48;97;122;104;46;120;110;45;45;57;48;97;51;97;99;47;229;156;176;229;155;190;47;65;47;98;47;67;63;231;188;150;229;143;183;61;52;50] false true (None) (Some [101;120;97;109;112;108;101;46;120;110;45;45;57;48;97;122;104;46;120;110;45;45;57;48;97;51;97;99])
   (mkResult [104;116;116;112;58;47;47] [] [] [101;120;97;109;112;108;101] [120;110;45;45;57;48;97;122;104;46;120;110;45;45;57;48;97;51;97;99] [101;120;97;109;112;108;101;46;120;110;45;45;57;48;97;122;104;46;120;110;45;45;57;48;97;51;97;99] [] [47;229;156;176;229;155;190;47;65;47;98;47;67;63;231;188;150;229;143;183;61;52;50] HHostName) (None);
  mkCase false [104;116;116;112;58;47;47;101;120;97;109;112;108;101;46;120;110;45;45;99;105;113;112;110;46;104;107] false false (None) (None)
   (mkResult [104;116;116;112;58;47;47] [] [] [101;120;97;109;112;108;101] [120;110;45;45;99;105;113;112;110;46;104;107] [101;120;97;109;112;108;101;46;120;110;45;45;99;105;113;112;110;46;104;107] [] [] HHostName) (None);
  mkCase false [104;116;116;112;58;47;47;101;120;97;109;112;108;101;46;120;110;45;45;57;48;97;122;104;46;120;110;45;45;57;48;97;51;97;99] false false (None) (None)
   (mkResult [104;116;116;112;58;47;47] [] [] [101;120;97;109;112;108;101] [120;110;45;45;57;48;97;122;104;46;120;110;45;45;57;48;97;51;97;99] [101;120;97;109;112;108;101;46;120;110;45;45;57;48;97;122;104;46;120;110;45;45;57;48;97;51;97;99] [] [] HHostName) (None);
  mkCase false [104;116;116;112;58;47;47;120;78;45;45;104;49;97;108;102;102;97;57;102;46;120;110;45;45;57;48;97;122;104;46;120;110;45;45;57;48;97;51;97;99] false false (None) (None)
   (mkResult [104;116;116;112;58;47;47] [] [] [120;78;45;45;104;49;97;108;102;102;97;57;102] [120;110;45;45;57;48;97;122;104;46;120;110;45;45;57;48;97;51;97;99] [120;78;45;45;104;49;97;108;102;102;97;57;102;46;120;110;45;45;57;48;97;122;104;46;120;110;45;45;57;48;97;51;97;99] [] [] HHostName) (None);
  mkCase false [104;116;116;112;58;47;47;120;78;45;45;104;49;97;108;102;102;97;57;102;46;120;110;45;45;57;48;97;122;104;46;120;110;45;45;57;48;97;51;97;99] false true (None) (Some [120;110;45;45;104;49;97;108;102;102;97;57;102;46;120;110;45;45;57;48;97;122;104;46;120;110;45;45;57;48;97;51;97;99])
   (mkResult [104;116;116;112;58;47;47] [] [] [120;110;45;45;104;49;97;108;102;102;97;57;102] [120;110;45;45;57;48;97;122;104;46;120;110;45;45;57;48;97;51;97;99] [120;110;45;45;104;49;97;108;102;102;97;57;102;46;120;110;45;45;57;48;97;122;104;46;120;110;45;45;57;48;97;51;97;99] [] [] HHostName) (None);
  mkCase false [104;116;116;112;115;58;47;47;101;120;97;109;112;108;101;46;97;105;47;101;110] false false (None) (None)
   (mkResult [104;116;116;112;115;58;47;47] [] [] [101;120;97;109;112;108;101] [97;105] [101;120;97;109;112;108;101;46;97;105] [] [47;101;110] HHostName) (None);
  mkCase false [104;116;116;112;115;58;47;47;101;120;97;109;112;108;101;46;99;111;47;101;110] false false (None) (None)
   (mkResult [104;116;116;112;115;58;47;47] [] [] [101;120;97;109;112;108;101] [99;111] [101;120;97;109;112;108;101;46;99;111] [] [47;101;110] HHostName) (None);
  mkCase false [104;116;116;112;115;58;47;47;101;120;97;109;112;108;101;46;115;103;47;101;110] false false (None) (None)
   (mkResult [104;116;116;112;115;58;47;47] [] [] [101;120;97;109;112;108;101] [115;103] [101;120;97;109;112;108;101;46;115;103] [] [47;101;110] HHostName) (None);
  mkCase false [104;116;116;112;115;58;47;47;101;120;97;109;112;108;101;46;116;118;47;101;110] false false (None) (None)
   (mkResult [104;116;116;112;115;58;47;47] [] [] [101;120;97;109;112;108;101] [116;118] [101;120;97;109;112;108;101;46;116;118] [] [47;101;110] HHostName) (None);
  mkCase false [104;116;116;112;115;58;47;47;101;120;97;109;112;108;101;46;37;54;51;111;109;47;101;110] false false (None) (None)
   (mkResult [104;116;116;112;115;58;47;47] [] [] [101;120;97;109;112;108;101] [37;54;51;111;109] [101;120;97;109;112;108;101;46;37;54;51;111;109] [] [47;101;110] HHostName) (None);
  mkCase false [104;116;116;112;115;58;47;47;101;120;97;109;112;108;101;46;122;97;47;101;110] false false (None) (None)
   (mkResult [104;116;116;112;115;58;47;47] [] [101;120;97;109;112;108;101] [122;97] [] [] [] [47;101;110] HHostName) (None);
  mkCase false [104;116;116;112;58;47;47;119;119;119;46;101;120;97;109;112;108;101;46;99;111;109;47;116;104;105;115;58;116;104;97;116] false false (None) (None)
   (mkResult [104;116;116;112;58;47;47] [] [119;119;119] [101;120;97;109;112;108;101] [99;111;109] [101;120;97;109;112;108;101;46;99;111;109] [] [47;116;104;105;115;58;116;104;97;116] HHostName) (None);
  mkCase false [104;116;116;112;58;47;47;101;120;97;109;112;108;101;46;99;111;109;47;111;105;100;47;91;111;114;100;101;114;95;105;100;93] false false (None) (None)
   (mkResult [104;116;116;112;58;47;47] [] [] [101;120;97;109;112;108;101] [99;111;109] [101;120;97;109;112;108;101;46;99;111;109] [] [47;111;105;100;47;91;111;114;100;101;114;95;105;100;93] HHostName) (None);
  mkCase false [104;116;116;112;115;58;47;47;97;115;100;102;46;119;119;101;46;99;107] false false (None) (None)
   (mkResult [104;116;116;112;115;58;47;47] [] [] [97;115;100;102] [119;119;101;46;99;107] [97;115;100;102;46;119;119;101;46;99;107] [] [] HHostName) (None);
  mkCase false [104;116;116;112;115;58;47;47;97;115;100;102;46;119;119;119;46;99;107] false false (None) (None)
   (mkResult [104;116;116;112;115;58;47;47] [] [97;115;100;102] [119;119;119] [99;107] [119;119;119;46;99;107] [] [] HHostName) (None);
  mkCase false [104;116;116;112;115;58;47;47;98;114;98;46;105;46;97;109;46;103;111;105;110;103;46;116;111;46;98;101;46;97;46;102;107] false false (None) (None)
   (mkResult [104;116;116;112;115;58;47;47] [] [98;114;98;46;105;46;97;109;46;103;111;105;110;103;46;116;111] [98;101] [97;46;102;107] [98;101;46;97;46;102;107] [] [] HHostName) (None);
  mkCase false [104;116;116;112;58;47;47;71;79;79;226;128;139;226;129;160;239;187;191;103;111;111;46;117;114;108;116;101;115;116;46;108;111;111;107;111;117;116;46;110;101;116] false false (None) (None)
   (mkResult [104;116;116;112;58;47;47] [] [] [] [] [] [] [] HNone) (Some ErrInvalidChars);
  mkCase false [104;116;116;112;58;47;47;217;134;216;167;217;133;217;135;226;128;140;216;167;219;140;46;117;114;108;116;101;115;116;46;108;111;111;107;111;117;116;46;110;101;116] false false (None) (None)
   (mkResult [104;116;116;112;58;47;47] [] [] [] [] [] [] [] HNone) (Some ErrInvalidChars);
  mkCase false [104;116;116;112;58;47;47;0;224;183;129;224;183;138;226;128;141;224;182;187;224;183;147;46;99;111;109;46;117;114;108;116;101;115;116;46;108;111;111;107;111;117;116;46;110;101;116] false false (None) (None)
   (mkResult [104;116;116;112;58;47;47] [] [] [] [] [] [] [] HNone) (Some ErrInvalidChars);
  mkCase false [104;116;116;112;58;47;47;224;183;129;224;183;138;226;128;141;224;182;187;224;183;147;46;117;114;108;116;101;115;116;46;108;111;111;107;111;117;116;46;110;101;116] false false (None) (None)
   (mkResult [104;116;116;112;58;47;47] [] [] [] [] [] [] [] HNone) (Some ErrInvalidChars);
  mkCase false [104;116;116;112;58;47;47;108;111;111;107;239;187;191;111;117;116;46;117;114;108;116;101;115;116;46;108;111;111;107;111;117;116;46;110;101;116] false false (None) (None)
   (mkResult [104;116;116;112;58;47;47] [] [] [] [] [] [] [] HNone) (Some ErrInvalidChars);
  mkCase false [104;116;116;112;58;47;47;119;119;119;194;160;46;117;114;108;116;101;115;116;46;108;111;111;107;111;117;116;46;110;101;116] false false (None) (None)
   (mkResult [104;116;116;112;58;47;47] [] [] [] [] [] [] [] HNone) (Some ErrInvalidChars);
  mkCase false [104;116;116;112;58;47;47;225;154;128;46;117;114;108;116;101;115;116;46;108;111;111;107;111;117;116;46;110;101;116] false false (None) (None)
   (mkResult [104;116;116;112;58;47;47] [] [] [] [] [] [] [] HNone) (Some ErrInvalidChars);
  mkCase false [37;54;56;37;55;52;37;55;52;37;55;48;37;51;97;37;50;102;37;50;102;37;55;55;37;55;55;37;55;55;37;50;101;37;54;53;37;55;56;37;54;49;37;54;100;37;55;48;37;54;99;37;54;53;37;50;101;37;54;51;37;54;102;37;54;100;37;50;102;46;117;114;108;116;101;115;116;46;108;111;111;107;111;117;116;46;110;101;116] false false (None) (None)
   (mkResult [] [] [37;54;56;37;55;52;37;55;52;37;55;48;37;51;97;37;50;102;37;50;102;37;55;55;37;55;55;37;55;55;37;50;101;37;54;53;37;55;56;37;54;49;37;54;100;37;55;48;37;54;99;37;54;53;37;50;101;37;54;51;37;54;102;37;54;100;37;50;102;46;117;114;108;116;101;115;116] [108;111;111;107;111;117;116] [110;101;116] [108;111;111;107;111;117;116;46;110;101;116] [] [] HHostName) (None);
  mkCase false [104;116;116;112;37;51;97;37;50;102;37;50;102;37;55;55;37;55;55;37;55;55;37;50;101;37;54;53;37;55;56;37;54;49;37;54;100;37;55;48;37;54;99;37;54;53;37;50;101;37;54;51;37;54;102;37;54;100;37;50;102;46;117;114;108;116;101;115;116;46;108;111;111;107;111;117;116;46;110;101;116] false false (None) (None)
   (mkResult [] [] [104;116;116;112;37;51;97;37;50;102;37;50;102;37;55;55;37;55;55;37;55;55;37;50;101;37;54;53;37;55;56;37;54;49;37;54;100;37;55;48;37;54;99;37;54;53;37;50;101;37;54;51;37;54;102;37;54;100;37;50;102;46;117;114;108;116;101;115;116] [108;111;111;107;111;117;116] [110;101;116] [108;111;111;107;111;117;116;46;110;101;116] [] [] HHostName) (None);
  mkCase false [104;116;116;112;58;47;47;37;50;53;46;117;114;108;116;101;115;116;46;108;111;111;107;111;117;116;46;110;101;116] false false (None) (None)
   (mkResult [104;116;116;112;58;47;47] [] [37;50;53;46;117;114;108;116;101;115;116] [108;111;111;107;111;117;116] [110;101;116] [108;111;111;107;111;117;116;46;110;101;116] [] [] HHostName) (None);
  mkCase false [104;116;116;112;58;47;47;37;50;53;68;79;77;65;73;78;58;102;111;111;98;97;114;64;117;114;108;116;101;115;116;46;108;111;111;107;111;117;116;46;110;101;116] false false (None) (None)
   (mkResult [104;116;116;112;58;47;47] [37;50;53;68;79;77;65;73;78;58;102;111;111;98;97;114] [117;114;108;116;101;115;116] [108;111;111;107;111;117;116] [110;101;116] [108;111;111;107;111;117;116;46;110;101;116] [] [] HHostName) (None);
  mkCase false [104;116;116;112;58;47;47;37;51;48;37;55;56;37;54;51;37;51;48;37;50;101;37;51;48;37;51;50;37;51;53;37;51;48;46;48;49;37;50;101;46;117;114;108;116;101;115;116;46;108;111;111;107;111;117;116;46;110;101;116] false false (None) (None)
   (mkResult [104;116;116;112;58;47;47] [] [37;51;48;37;55;56;37;54;51;37;51;48;37;50;101;37;51;48;37;51;50;37;51;53;37;51;48;46;48;49;37;50;101;46;117;114;108;116;101;115;116] [108;111;111;107;111;117;116] [110;101;116] [108;111;111;107;111;117;116;46;110;101;116] [] [] HHostName) (None);
  mkCase false [104;116;116;112;58;47;47;37;51;48;37;55;56;37;54;51;37;51;48;37;50;101;37;51;48;37;51;50;37;51;53;37;51;48;46;48;49;46;117;114;108;116;101;115;116;46;108;111;111;107;111;117;116;46;110;101;116] false false (None) (None)
   (mkResult [104;116;116;112;58;47;47] [] [37;51;48;37;55;56;37;54;51;37;51;48;37;50;101;37;51;48;37;51;50;37;51;53;37;51;48;46;48;49;46;117;114;108;116;101;115;116] [108;111;111;107;111;117;116] [110;101;116] [108;111;111;107;111;117;116;46;110;101;116] [] [] HHostName) (None);
  mkCase false [104;116;116;112;58;47;47;37;51;103;37;55;56;37;54;51;37;51;48;37;50;101;37;51;48;37;51;50;37;51;53;37;51;48;37;50;69;46;48;49;46;117;114;108;116;101;115;116;46;108;111;111;107;111;117;116;46;110;101;116] false false (None) (None)
   (mkResult [104;116;116;112;58;47;47] [] [] [] [] [] [] [] HNone) (Some (ErrUnescape [37;51;103]));
  mkCase false [104;116;116;112;58;47;47;37;55;55;37;55;55;37;55;55;37;50;101;37;54;53;37;55;56;37;54;49;37;54;100;37;55;48;37;54;99;37;54;53;37;50;101;37;54;51;37;54;102;37;54;100;46;117;114;108;116;101;115;116;46;108;111;111;107;111;117;116;46;110;101;116;37;51;97;37;51;56;37;51;48] false false (None) (None)
   (mkResult [104;116;116;112;58;47;47] [] [37;55;55;37;55;55;37;55;55;37;50;101;37;54;53;37;55;56;37;54;49;37;54;100;37;55;48;37;54;99;37;54;53;37;50;101;37;54;51;37;54;102;37;54;100;46;117;114;108;116;101;115;116;46;108;111;111;107;111;117;116] [110;101;116;37;51;97;37;51;56;37;51;48] [] [] [] [] HHostName) (None);
  mkCase false [104;116;116;112;58;47;47;37;65;49;37;67;49;46;117;114;108;116;101;115;116;46;108;111;111;107;111;117;116;46;110;101;116] false false (None) (None)
   (mkResult [104;116;116;112;58;47;47] [] [37;65;49;37;67;49;46;117;114;108;116;101;115;116] [108;111;111;107;111;117;116] [110;101;116] [108;111;111;107;111;117;116;46;110;101;116] [] [] HHostName) (None);
  mkCase false [104;116;116;112;58;47;47;37;69;52;37;66;68;37;65;48;37;69;53;37;65;53;37;66;68;228;189;160;229;165;189;46;117;114;108;116;101;115;116;46;108;111;111;107;111;117;116;46;110;101;116] false false (None) (None)
   (mkResult [104;116;116;112;58;47;47] [] [37;69;52;37;66;68;37;65;48;37;69;53;37;65;53;37;66;68;228;189;160;229;165;189;46;117;114;108;116;101;115;116] [108;111;111;107;111;117;116] [110;101;116] [108;111;111;107;111;117;116;46;110;101;116] [] [] HHostName) (None);
  mkCase false [104;116;116;112;58;47;47;37;101;102;37;98;55;37;57;48;122;121;120;46;117;114;108;116;101;115;116;46;108;111;111;107;111;117;116;46;110;101;116] false false (None) (None)
   (mkResult [104;116;116;112;58;47;47] [] [37;101;102;37;98;55;37;57;48;122;121;120;46;117;114;108;116;101;115;116] [108;111;111;107;111;117;116] [110;101;116] [108;111;111;107;111;117;116;46;110;101;116] [] [] HHostName) (None);
  mkCase false [104;116;116;112;58;47;47;37;101;102;37;98;99;37;56;53;37;101;102;37;98;99;37;57;48;37;101;102;37;98;99;37;57;48;46;117;114;108;116;101;115;116;46;108;111;111;107;111;117;116;46;110;101;116] false false (None) (None)
   (mkResult [104;116;116;112;58;47;47] [] [37;101;102;37;98;99;37;56;53;37;101;102;37;98;99;37;57;48;37;101;102;37;98;99;37;57;48;46;117;114;108;116;101;115;116] [108;111;111;107;111;117;116] [110;101;116] [108;111;111;107;111;117;116;46;110;101;116] [] [] HHostName) (None);
  mkCase false [104;116;116;112;58;47;47;37;101;102;37;98;99;37;56;53;37;101;102;37;98;99;37;57;52;37;101;102;37;98;99;37;57;49;46;117;114;108;116;101;115;116;46;108;111;111;107;111;117;116;46;110;101;116] false false (None) (None)
   (mkResult [104;116;116;112;58;47;47] [] [37;101;102;37;98;99;37;56;53;37;101;102;37;98;99;37;57;52;37;101;102;37;98;99;37;57;49;46;117;114;108;116;101;115;116] [108;111;111;107;111;117;116] [110;101;116] [108;111;111;107;111;117;116;46;110;101;116] [] [] HHostName) (None);
  mkCase false [104;116;116;112;58;47;47;37;122;122;37;54;54;37;97;46;117;114;108;116;101;115;116;46;108;111;111;107;111;117;116;46;110;101;116] false false (None) (None)
   (mkResult [104;116;116;112;58;47;47] [] [] [] [] [] [] [] HNone) (Some (ErrUnescape [37;122;122]));
  mkCase false [104;116;116;112;58;47;47;45;102;111;111;46;117;114;108;116;101;115;116;46;108;111;111;107;111;117;116;46;110;101;116] false false (None) (None)
   (mkResult [104;116;116;112;58;47;47] [] [] [] [] [] [] [] HNone) (Some ErrInvalidChars);
  mkCase false [104;116;116;112;58;47;47;47;47;47;47;47;47;117;115;101;114;58;64;117;114;108;116;101;115;116;46;108;111;111;107;111;117;116;46;110;101;116;63;102;111;111] false false (None) (None)
   (mkResult [104;116;116;112;58;47;47;47;47;47;47;47;47] [117;115;101;114;58] [117;114;108;116;101;115;116] [108;111;111;107;111;117;116] [110;101;116] [108;111;111;107;111;117;116;46;110;101;116] [] [63;102;111;111] HHostName) (None);
  mkCase false [104;116;116;112;58;47;47;49;57;50;46;49;54;56;46;48;46;49;32;104;101;108;108;111;46;117;114;108;116;101;115;116;46;108;111;111;107;111;117;116;46;110;101;116] false false (None) (None)
   (mkResult [104;116;116;112;58;47;47] [] [] [] [] [] [] [] HNone) (Some ErrInvalidChars);
  mkCase false [104;116;116;112;58;47;47;49;57;50;46;49;54;56;46;48;46;50;53;55;46;117;114;108;116;101;115;116;46;108;111;111;107;111;117;116;46;110;101;116] false false (None) (None)
   (mkResult [104;116;116;112;58;47;47] [] [49;57;50;46;49;54;56;46;48;46;50;53;55;46;117;114;108;116;101;115;116] [108;111;111;107;111;117;116] [110;101;116] [108;111;111;107;111;117;116;46;110;101;116] [] [] HHostName) (None);
  mkCase false [104;116;116;112;58;47;47;66;195;188;99;104;101;114;46;100;101;46;117;114;108;116;101;115;116;46;108;111;111;107;111;117;116;46;110;101;116] false false (None) (None)
   (mkResult [104;116;116;112;58;47;47] [] [66;195;188;99;104;101;114;46;100;101;46;117;114;108;116;101;115;116] [108;111;111;107;111;117;116] [110;101;116] [108;111;111;107;111;117;116;46;110;101;116] [] [] HHostName) (None);
  mkCase false [104;116;116;112;58;47;47;71;79;79;32;227;128;128;103;111;111;46;117;114;108;116;101;115;116;46;108;111;111;107;111;117;116;46;110;101;116] false false (None) (None)
   (mkResult [104;116;116;112;58;47;47] [] [] [] [] [] [] [] HNone) (Some ErrInvalidChars);
  mkCase false [104;116;116;112;58;47;47;71;111;111;37;50;48;32;103;111;111;37;55;67;124;46;117;114;108;116;101;115;116;46;108;111;111;107;111;117;116;46;110;101;116] false false (None) (None)
   (mkResult [104;116;116;112;58;47;47] [] [] [] [] [] [] [] HNone) (Some ErrInvalidChars);
  mkCase false [104;116;116;112;58;47;47;91;103;111;111;103;108;101;46;99;111;109;46;93;46;117;114;108;116;101;115;116;46;108;111;111;107;111;117;116;46;110;101;116] false false (None) (None)
   (mkResult [104;116;116;112;58;47;47] [] [] [] [] [] [] [] HNone) (Some ErrInvalidIPv6);
  mkCase false [104;116;116;112;58;47;47;91;117;114;108;116;101;115;116;46;108;111;111;107;111;117;116;46;110;101;116;93;47] false false (None) (None)
   (mkResult [104;116;116;112;58;47;47] [] [] [] [] [] [] [] HNone) (Some ErrInvalidIPv6);
  mkCase false [104;116;116;112;58;47;47;31;46;117;114;108;116;101;115;116;46;108;111;111;107;111;117;116;46;110;101;116] false false (None) (None)
   (mkResult [104;116;116;112;58;47;47] [] [] [] [] [] [] [] HNone) (Some ErrInvalidChars);
  mkCase false [104;116;116;112;58;47;47;205;184;46;117;114;108;116;101;115;116;46;108;111;111;107;111;117;116;46;110;101;116] false false (None) (None)
   (mkResult [104;116;116;112;58;47;47] [] [205;184;46;117;114;108;116;101;115;116] [108;111;111;107;111;117;116] [110;101;116] [108;111;111;107;111;117;116;46;110;101;116] [] [] HHostName) (None);
  mkCase false [104;116;116;112;58;47;47;206;178;207;140;206;187;206;191;207;130;46;99;111;109;46;117;114;108;116;101;115;116;46;108;111;111;107;111;117;116;46;110;101;116] false false (None) (None)
   (mkResult [104;116;116;112;58;47;47] [] [206;178;207;140;206;187;206;191;207;130;46;99;111;109;46;117;114;108;116;101;115;116] [108;111;111;107;111;117;116] [110;101;116] [108;111;111;107;111;117;116;46;110;101;116] [] [] HHostName) (None);
  mkCase false [104;116;116;112;58;47;47;206;178;207;140;206;187;206;191;207;130;46;117;114;108;116;101;115;116;46;108;111;111;107;111;117;116;46;110;101;116] false false (None) (None)
   (mkResult [104;116;116;112;58;47;47] [] [206;178;207;140;206;187;206;191;207;130;46;117;114;108;116;101;115;116] [108;111;111;107;111;117;116] [110;101;116] [108;111;111;107;111;117;116;46;110;101;116] [] [] HHostName) (None);
  mkCase false [104;116;116;112;58;47;47;209;130;40;46;117;114;108;116;101;115;116;46;108;111;111;107;111;117;116;46;110;101;116] false false (None) (None)
   (mkResult [104;116;116;112;58;47;47] [] [] [] [] [] [] [] HNone) (Some ErrInvalidChars);
  mkCase false [104;116;116;112;58;47;47;211;128;46;117;114;108;116;101;115;116;46;108;111;111;107;111;117;116;46;110;101;116] false false (None) (None)
   (mkResult [104;116;116;112;58;47;47] [] [] [] [] [] [] [] HNone) (Some ErrInvalidChars);
  mkCase false [104;116;116;112;58;47;47;219;157;46;117;114;108;116;101;115;116;46;108;111;111;107;111;117;116;46;110;101;116] false false (None) (None)
   (mkResult [104;116;116;112;58;47;47] [] [] [] [] [] [] [] HNone) (Some ErrInvalidChars);
  mkCase false [104;116;116;112;58;47;47;224;167;156;46;117;114;108;116;101;115;116;46;108;111;111;107;111;117;116;46;110;101;116] false false (None) (None)
   (mkResult [104;116;116;112;58;47;47] [] [224;167;156;46;117;114;108;116;101;115;116] [108;111;111;107;111;117;116] [110;101;116] [108;111;111;107;111;117;116;46;110;101;116] [] [] HHostName) (None);
  mkCase false [104;116;116;112;58;47;47;225;151;175;225;151;175;225;151;175;46;117;114;108;116;101;115;116;46;108;111;111;107;111;117;116;46;110;101;116] false false (None) (None)
   (mkResult [104;116;116;112;58;47;47] [] [225;151;175;225;151;175;225;151;175;46;117;114;108;116;101;115;116] [108;111;111;107;111;117;116] [110;101;116] [108;111;111;107;111;117;116;46;110;101;116] [] [] HHostName) (None);
  mkCase false [104;116;116;112;58;47;47;225;160;142;46;117;114;108;116;101;115;116;46;108;111;111;107;111;117;116;46;110;101;116] false false (None) (None)
   (mkResult [104;116;116;112;58;47;47] [] [] [] [] [] [] [] HNone) (Some ErrInvalidChars);
  mkCase false [104;116;116;112;58;47;47;225;186;158;46;117;114;108;116;101;115;116;46;108;111;111;107;111;117;116;46;110;101;116] false false (None) (None)
   (mkResult [104;116;116;112;58;47;47] [] [225;186;158;46;117;114;108;116;101;115;116] [108;111;111;107;111;117;116] [110;101;116] [108;111;111;107;111;117;116;46;110;101;116] [] [] HHostName) (None);
  mkCase false [104;116;116;112;58;47;47;226;134;131;46;117;114;108;116;101;115;116;46;108;111;111;107;111;117;116;46;110;101;116] false false (None) (None)
   (mkResult [104;116;116;112;58;47;47] [] [] [] [] [] [] [] HNone) (Some ErrInvalidChars);
  mkCase false [104;116;116;112;58;47;47;226;153;165;46;117;114;108;116;101;115;116;46;108;111;111;107;111;117;116;46;110;101;116] false false (None) (None)
   (mkResult [104;116;116;112;58;47;47] [] [226;153;165;46;117;114;108;116;101;115;116] [108;111;111;107;111;117;116] [110;101;116] [108;111;111;107;111;117;116;46;110;101;116] [] [] HHostName) (None);
  mkCase false [104;116;116;112;58;47;47;228;189;160;229;165;189;228;189;160;229;165;189;46;117;114;108;116;101;115;116;46;108;111;111;107;111;117;116;46;110;101;116] false false (None) (None)
   (mkResult [104;116;116;112;58;47;47] [] [228;189;160;229;165;189;228;189;160;229;165;189;46;117;114;108;116;101;115;116] [108;111;111;107;111;117;116] [110;101;116] [108;111;111;107;111;117;116;46;110;101;116] [] [] HHostName) (None);
  mkCase false [104;116;116;112;58;47;47;239;183;144;122;121;120;46;117;114;108;116;101;115;116;46;108;111;111;107;111;117;116;46;110;101;116] false false (None) (None)
   (mkResult [104;116;116;112;58;47;47] [] [] [] [] [] [] [] HNone) (Some ErrInvalidChars);
  mkCase false [104;116;116;112;58;47;47;239;188;133;239;188;144;239;188;144;46;117;114;108;116;101;115;116;46;108;111;111;107;111;117;116;46;110;101;116] false false (None) (None)
   (mkResult [104;116;116;112;58;47;47] [] [] [] [] [] [] [] HNone) (Some ErrInvalidChars);
  mkCase false [104;116;116;112;58;47;47;239;188;133;239;188;148;239;188;145;46;117;114;108;116;101;115;116;46;108;111;111;107;111;117;116;46;110;101;116] false false (None) (None)
   (mkResult [104;116;116;112;58;47;47] [] [] [] [] [] [] [] HNone) (Some ErrInvalidChars);
  mkCase false [104;116;116;112;58;47;47;239;188;144;239;188;184;239;189;131;239;188;144;239;188;142;239;188;144;239;188;146;239;188;149;239;188;144;239;188;142;239;188;144;239;188;145;46;117;114;108;116;101;115;116;46;108;111;111;107;111;117;116;46;110;101;116] false false (None) (None)
   (mkResult [104;116;116;112;58;47;47] [] [239;188;144;239;188;184;239;189;131;239;188;144;239;188;142;239;188;144;239;188;146;239;188;149;239;188;144;239;188;142;239;188;144;239;188;145;46;117;114;108;116;101;115;116] [108;111;111;107;111;117;116] [110;101;116] [108;111;111;107;111;117;116;46;110;101;116] [] [] HHostName) (None);
  mkCase false [104;116;116;112;58;47;47;239;188;167;239;189;143;46;117;114;108;116;101;115;116;46;108;111;111;107;111;117;116;46;110;101;116] false false (None) (None)
   (mkResult [104;116;116;112;58;47;47] [] [239;188;167;239;189;143;46;117;114;108;116;101;115;116] [108;111;111;107;111;117;116] [110;101;116] [108;111;111;107;111;117;116;46;110;101;116] [] [] HHostName) (None);
  mkCase false [104;116;116;112;58;47;47;97;98;45;45;99;100;46;117;114;108;116;101;115;116;46;108;111;111;107;111;117;116;46;110;101;116] false false (None) (None)
   (mkResult [104;116;116;112;58;47;47] [] [97;98;45;45;99;100;46;117;114;108;116;101;115;116] [108;111;111;107;111;117;116] [110;101;116] [108;111;111;107;111;117;116;46;110;101;116] [] [] HHostName) (None);
  mkCase false [104;116;116;112;58;47;47;102;97;195;159;46;100;101;46;117;114;108;116;101;115;116;46;108;111;111;107;111;117;116;46;110;101;116] false false (None) (None)
   (mkResult [104;116;116;112;58;47;47] [] [102;97;195;159;46;100;101;46;117;114;108;116;101;115;116] [108;111;111;107;111;117;116] [110;101;116] [108;111;111;107;111;117;116;46;110;101;116] [] [] HHostName) (None);
  mkCase false [104;116;116;112;58;47;47;102;111;111;45;46;117;114;108;116;101;115;116;46;108;111;111;107;111;117;116;46;110;101;116] false false (None) (None)
   (mkResult [104;116;116;112;58;47;47] [] [102;111;111;45;46;117;114;108;116;101;115;116] [108;111;111;107;111;117;116] [110;101;116] [108;111;111;107;111;117;116;46;110;101;116] [] [] HHostName) (None);
  mkCase false [104;116;116;112;58;47;47;102;111;111;204;128;46;117;114;108;116;101;115;116;46;108;111;111;107;111;117;116;46;110;101;116] false false (None) (None)
   (mkResult [104;116;116;112;58;47;47] [] [102;111;111;204;128;46;117;114;108;116;101;115;116] [108;111;111;107;111;117;116] [110;101;116] [108;111;111;107;111;117;116;46;110;101;116] [] [] HHostName) (None);
  mkCase false [104;116;116;112;58;47;47;103;79;111;71;108;101;46;117;114;108;116;101;115;116;46;108;111;111;107;111;117;116;46;110;101;116] false false (None) (None)
   (mkResult [104;116;116;112;58;47;47] [] [103;79;111;71;108;101;46;117;114;108;116;101;115;116] [108;111;111;107;111;117;116] [110;101;116] [108;111;111;107;111;117;116;46;110;101;116] [] [] HHostName) (None);
  mkCase false [104;116;116;112;58;47;47;104;101;108;108;111;37;48;48;46;117;114;108;116;101;115;116;46;108;111;111;107;111;117;116;46;110;101;116] false false (None) (None)
   (mkResult [104;116;116;112;58;47;47] [] [104;101;108;108;111;37;48;48;46;117;114;108;116;101;115;116] [108;111;111;107;111;117;116] [110;101;116] [108;111;111;107;111;117;116;46;110;101;116] [] [] HHostName) (None);
  mkCase false [104;116;116;112;58;47;47;108;111;111;107;205;129;111;117;116;46;117;114;108;116;101;115;116;46;108;111;111;107;111;117;116;46;110;101;116] false false (None) (None)
   (mkResult [104;116;116;112;58;47;47] [] [108;111;111;107;205;129;111;117;116;46;117;114;108;116;101;115;116] [108;111;111;107;111;117;116] [110;101;116] [108;111;111;107;111;117;116;46;110;101;116] [] [] HHostName) (None);
  mkCase false [104;116;116;112;58;47;47;108;111;111;107;205;143;111;117;116;46;117;114;108;116;101;115;116;46;108;111;111;107;111;117;116;46;110;101;116] false false (None) (None)
   (mkResult [104;116;116;112;58;47;47] [] [108;111;111;107;205;143;111;117;116;46;117;114;108;116;101;115;116] [108;111;111;107;111;117;116] [110;101;116] [108;111;111;107;111;117;116;46;110;101;116] [] [] HHostName) (None);
  mkCase false [104;116;116;112;58;47;47;108;111;111;107;214;190;111;117;116;46;117;114;108;116;101;115;116;46;108;111;111;107;111;117;116;46;110;101;116] false false (None) (None)
   (mkResult [104;116;116;112;58;47;47] [] [108;111;111;107;214;190;111;117;116;46;117;114;108;116;101;115;116] [108;111;111;107;111;117;116] [110;101;116] [108;111;111;107;111;117;116;46;110;101;116] [] [] HHostName) (None);
  mkCase false [104;116;116;112;58;47;47;108;111;111;107;226;128;174;111;117;116;46;117;114;108;116;101;115;116;46;108;111;111;107;111;117;116;46;110;101;116] false false (None) (None)
   (mkResult [104;116;116;112;58;47;47] [] [] [] [] [] [] [] HNone) (Some ErrInvalidChars);
  mkCase false [104;116;116;112;58;47;47;108;111;111;107;226;129;160;46;117;114;108;116;101;115;116;46;108;111;111;107;111;117;116;46;110;101;116] false false (None) (None)
   (mkResult [104;116;116;112;58;47;47] [] [108;111;111;107;226;129;160;46;117;114;108;116;101;115;116] [108;111;111;107;111;117;116] [110;101;116] [108;111;111;107;111;117;116;46;110;101;116] [] [] HHostName) (None);
  mkCase false [104;116;116;112;58;47;47;108;111;111;107;226;129;171;111;117;116;46;117;114;108;116;101;115;116;46;108;111;111;107;111;117;116;46;110;101;116] false false (None) (None)
   (mkResult [104;116;116;112;58;47;47] [] [108;111;111;107;226;129;171;111;117;116;46;117;114;108;116;101;115;116] [108;111;111;107;111;117;116] [110;101;116] [108;111;111;107;111;117;116;46;110;101;116] [] [] HHostName) (None);
  mkCase false [104;116;116;112;58;47;47;108;111;111;107;226;191;176;111;117;116;46;117;114;108;116;101;115;116;46;108;111;111;107;111;117;116;46;110;101;116] false false (None) (None)
   (mkResult [104;116;116;112;58;47;47] [] [] [] [] [] [] [] HNone) (Some ErrInvalidChars);
  mkCase false [104;116;116;112;58;47;47;108;111;111;107;239;191;186;111;117;116;46;117;114;108;116;101;115;116;46;108;111;111;107;111;117;116;46;110;101;116] false false (None) (None)
   (mkResult [104;116;116;112;58;47;47] [] [] [] [] [] [] [] HNone) (Some ErrInvalidChars);
  mkCase false [104;116;116;112;58;47;47;117;82;76;84;101;115;116;46;108;111;111;107;111;117;116;46;110;101;116] false false (None) (None)
   (mkResult [104;116;116;112;58;47;47] [] [117;82;76;84;101;115;116] [108;111;111;107;111;117;116] [110;101;116] [108;111;111;107;111;117;116;46;110;101;116] [] [] HHostName) (None);
  mkCase false [104;116;116;112;58;47;47;117;114;108;116;101;115;116;46;108;111;111;107;111;117;116;46;110;101;116] false false (None) (None)
   (mkResult [104;116;116;112;58;47;47] [] [117;114;108;116;101;115;116] [108;111;111;107;111;117;116] [110;101;116] [108;111;111;107;111;117;116;46;110;101;116] [] [] HHostName) (None);
  mkCase false [104;116;116;112;58;47;47;117;114;108;116;101;115;116;46;108;111;111;107;111;117;116;46;110;101;116;47;37;50;48;102;111;111] false false (None) (None)
   (mkResult [104;116;116;112;58;47;47] [] [117;114;108;116;101;115;116] [108;111;111;107;111;117;116] [110;101;116] [108;111;111;107;111;117;116;46;110;101;116] [] [47;37;50;48;102;111;111] HHostName) (None);
  mkCase false [104;116;116;112;58;47;47;117;114;108;116;101;115;116;46;108;111;111;107;111;117;116;46;110;101;116;47;37;51;65;37;51;97;37;51;67;37;51;99] false false (None) (None)
   (mkResult [104;116;116;112;58;47;47] [] [117;114;108;116;101;115;116] [108;111;111;107;111;117;116] [110;101;116] [108;111;111;107;111;117;116;46;110;101;116] [] [47;37;51;65;37;51;97;37;51;67;37;51;99] HHostName) (None);
  mkCase false [104;116;116;112;58;47;47;117;114;108;116;101;115;116;46;108;111;111;107;111;117;116;46;110;101;116;47;37;55;70;102;112;51;37;51;69;106;117;37;51;68;100;117;118;103;119;37;51;68;100] false false (None) (None)
   (mkResult [104;116;116;112;58;47;47] [] [117;114;108;116;101;115;116] [108;111;111;107;111;117;116] [110;101;116] [108;111;111;107;111;117;116;46;110;101;116] [] [47;37;55;70;102;112;51;37;51;69;106;117;37;51;68;100;117;118;103;119;37;51;68;100] HHostName) (None);
  mkCase false [104;116;116;112;58;47;47;117;114;108;116;101;115;116;46;108;111;111;107;111;117;116;46;110;101;116;47;37;65;49;37;67;49;47;63;102;111;111;61;37;69;70;37;66;68;37;56;49] false false (None) (None)
   (mkResult [104;116;116;112;58;47;47] [] [117;114;108;116;101;115;116] [108;111;111;107;111;117;116] [110;101;116] [108;111;111;107;111;117;116;46;110;101;116] [] [47;37;65;49;37;67;49;47;63;102;111;111;61;37;69;70;37;66;68;37;56;49] HHostName) (None);
  mkCase false [104;116;116;112;58;47;47;117;114;108;116;101;115;116;46;108;111;111;107;111;117;116;46;110;101;116;47;37;65;49;37;67;49;47;63;102;111;111;61;63;63;63] false false (None) (None)
   (mkResult [104;116;116;112;58;47;47] [] [117;114;108;116;101;115;116] [108;111;111;107;111;117;116] [110;101;116] [108;111;111;107;111;117;116;46;110;101;116] [] [47;37;65;49;37;67;49;47;63;102;111;111;61;63;63;63] HHostName) (None);
  mkCase false [104;116;116;112;58;47;47;117;114;108;116;101;115;116;46;108;111;111;107;111;117;116;46;110;101;116;47;37;69;70;37;66;68;37;56;49;47;63;102;111;111;61;37;65;49;37;67;49] false false (None) (None)
   (mkResult [104;116;116;112;58;47;47] [] [117;114;108;116;101;115;116] [108;111;111;107;111;117;116] [110;101;116] [108;111;111;107;111;117;116;46;110;101;116] [] [47;37;69;70;37;66;68;37;56;49;47;63;102;111;111;61;37;65;49;37;67;49] HHostName) (None);
  mkCase false [104;116;116;112;58;47;47;117;114;108;116;101;115;116;46;108;111;111;107;111;117;116;46;110;101;116;47;40;37;50;56;58;37;51;65;37;50;57;41] false false (None) (None)
   (mkResult [104;116;116;112;58;47;47] [] [117;114;108;116;101;115;116] [108;111;111;107;111;117;116] [110;101;116] [108;111;111;107;111;117;116;46;110;101;116] [] [47;40;37;50;56;58;37;51;65;37;50;57;41] HHostName) (None);
  mkCase false [104;116;116;112;58;47;47;117;114;108;116;101;115;116;46;108;111;111;107;111;117;116;46;110;101;116;47;46;47;46;47;102;111;111] false false (None) (None)
   (mkResult [104;116;116;112;58;47;47] [] [117;114;108;116;101;115;116] [108;111;111;107;111;117;116] [110;101;116] [108;111;111;107;111;117;116;46;110;101;116] [] [47;46;47;46;47;102;111;111] HHostName) (None);
  mkCase false [104;116;116;112;58;47;47;117;114;108;116;101;115;116;46;108;111;111;107;111;117;116;46;110;101;116;47;46;47;46;102;111;111] false false (None) (None)
   (mkResult [104;116;116;112;58;47;47] [] [117;114;108;116;101;115;116] [108;111;111;107;111;117;116] [110;101;116] [108;111;111;107;111;117;116;46;110;101;116] [] [47;46;47;46;102;111;111] HHostName) (None);
  mkCase false [104;116;116;112;58;47;47;117;114;108;116;101;115;116;46;108;111;111;107;111;117;116;46;110;101;116;47;47;47;47;46;46;47;46;46] false false (None) (None)
   (mkResult [104;116;116;112;58;47;47] [] [117;114;108;116;101;115;116] [108;111;111;107;111;117;116] [110;101;116] [108;111;111;107;111;117;116;46;110;101;116] [] [47;47;47;47;46;46;47;46;46] HHostName) (None);
  mkCase false [104;116;116;112;58;47;47;117;114;108;116;101;115;116;46;108;111;111;107;111;117;116;46;110;101;116;47;63;37;48;50;104;101;108;108;111;37;55;102;32;98;121;101] false false (None) (None)
   (mkResult [104;116;116;112;58;47;47] [] [117;114;108;116;101;115;116] [108;111;111;107;111;117;116] [110;101;116] [108;111;111;107;111;117;116;46;110;101;116] [] [47;63;37;48;50;104;101;108;108;111;37;55;102;32;98;121;101] HHostName) (None);
  mkCase false [104;116;116;112;58;47;47;117;114;108;116;101;115;116;46;108;111;111;107;111;117;116;46;110;101;116;47;63;37;52;48;37;52;49;49;50;51] false false (None) (None)
   (mkResult [104;116;116;112;58;47;47] [] [117;114;108;116;101;115;116] [108;111;111;107;111;117;116] [110;101;116] [108;111;111;107;111;117;116;46;110;101;116] [] [47;63;37;52;48;37;52;49;49;50;51] HHostName) (None);
  mkCase false [104;116;116;112;58;47;47;117;114;108;116;101;115;116;46;108;111;111;107;111;117;116;46;110;101;116;47;63;63;63;47;63;102;111;111;61;37;65;49;37;67;49] false false (None) (None)
   (mkResult [104;116;116;112;58;47;47] [] [117;114;108;116;101;115;116] [108;111;111;107;111;117;116] [110;101;116] [108;111;111;107;111;117;116;46;110;101;116] [] [47;63;63;63;47;63;102;111;111;61;37;65;49;37;67;49] HHostName) (None);
  mkCase false [104;116;116;112;58;47;47;117;114;108;116;101;115;116;46;108;111;111;107;111;117;116;46;110;101;116;47;63;68;37;67;51;37;66;67;114;115;116] false false (None) (None)
   (mkResult [104;116;116;112;58;47;47] [] [117;114;108;116;101;115;116] [108;111;111;107;111;117;116] [110;101;116] [108;111;111;107;111;117;116;46;110;101;116] [] [47;63;68;37;67;51;37;66;67;114;115;116] HHostName) (None);
  mkCase false [104;116;116;112;58;47;47;117;114;108;116;101;115;116;46;108;111;111;107;111;117;116;46;110;101;116;47;63;68;37;70;67;114;115;116] false false (None) (None)
   (mkResult [104;116;116;112;58;47;47] [] [117;114;108;116;101;115;116] [108;111;111;107;111;117;116] [110;101;116] [108;111;111;107;111;117;116;46;110;101;116] [] [47;63;68;37;70;67;114;115;116] HHostName) (None);
  mkCase false [104;116;116;112;58;47;47;117;114;108;116;101;115;116;46;108;111;111;107;111;117;116;46;110;101;116;47;63;97;115;63;100;102] false false (None) (None)
   (mkResult [104;116;116;112;58;47;47] [] [117;114;108;116;101;115;116] [108;111;111;107;111;117;116] [110;101;116] [108;111;111;107;111;117;116;46;110;101;116] [] [47;63;97;115;63;100;102] HHostName) (None);
  mkCase false [104;116;116;112;58;47;47;117;114;108;116;101;115;116;46;108;111;111;107;111;117;116;46;110;101;116;47;63;102;111;111;61;98;97;114] false false (None) (None)
   (mkResult [104;116;116;112;58;47;47] [] [117;114;108;116;101;115;116] [108;111;111;107;111;117;116] [110;101;116] [108;111;111;107;111;117;116;46;110;101;116] [] [47;63;102;111;111;61;98;97;114] HHostName) (None);
  mkCase false [104;116;116;112;58;47;47;117;114;108;116;101;115;116;46;108;111;111;107;111;117;116;46;110;101;116;47;63;113;61;38;108;116;59;97;115;100;102;38;103;116;59] false false (None) (None)
   (mkResult [104;116;116;112;58;47;47] [] [117;114;108;116;101;115;116] [108;111;111;107;111;117;116] [110;101;116] [108;111;111;107;111;117;116;46;110;101;116] [] [47;63;113;61;38;108;116;59;97;115;100;102;38;103;116;59] HHostName) (None);
  mkCase false [104;116;116;112;58;47;47;117;114;108;116;101;115;116;46;108;111;111;107;111;117;116;46;110;101;116;47;63;113;61;34;97;115;100;102;34] false false (None) (None)
   (mkResult [104;116;116;112;58;47;47] [] [117;114;108;116;101;115;116] [108;111;111;107;111;117;116] [110;101;116] [108;111;111;107;111;117;116;46;110;101;116] [] [47;63;113;61;34;97;115;100;102;34] HHostName) (None);
  mkCase false [104;116;116;112;58;47;47;117;114;108;116;101;115;116;46;108;111;111;107;111;117;116;46;110;101;116;47;63;113;61;228;189;160;229;165;189] false false (None) (None)
   (mkResult [104;116;116;112;58;47;47] [] [117;114;108;116;101;115;116] [108;111;111;107;111;117;116] [110;101;116] [108;111;111;107;111;117;116;46;110;101;116] [] [47;63;113;61;228;189;160;229;165;189] HHostName) (None);
  mkCase false [104;116;116;112;58;47;47;117;114;108;116;101;115;116;46;108;111;111;107;111;117;116;46;110;101;116;47;64;97;115;100;102;37;52;48] false false (None) (None)
   (mkResult [104;116;116;112;58;47;47] [] [117;114;108;116;101;115;116] [108;111;111;107;111;117;116] [110;101;116] [108;111;111;107;111;117;116;46;110;101;116] [] [47;64;97;115;100;102;37;52;48] HHostName) (None);
  mkCase false [104;116;116;112;58;47;47;117;114;108;116;101;115;116;46;108;111;111;107;111;117;116;46;110;101;116;47;68;37;67;51;37;66;67;114;115;116] false false (None) (None)
   (mkResult [104;116;116;112;58;47;47] [] [117;114;108;116;101;115;116] [108;111;111;107;111;117;116] [110;101;116] [108;111;111;107;111;117;116;46;110;101;116] [] [47;68;37;67;51;37;66;67;114;115;116] HHostName) (None);
  mkCase false [104;116;116;112;58;47;47;117;114;108;116;101;115;116;46;108;111;111;107;111;117;116;46;110;101;116;47;68;37;70;67;114;115;116] false false (None) (None)
   (mkResult [104;116;116;112;58;47;47] [] [117;114;108;116;101;115;116] [108;111;111;107;111;117;116] [110;101;116] [108;111;111;107;111;117;116;46;110;101;116] [] [47;68;37;70;67;114;115;116] HHostName) (None);
  mkCase false [104;116;116;112;58;47;47;117;114;108;116;101;115;116;46;108;111;111;107;111;117;116;46;110;101;116;47;226;128;165;47;102;111;111] false false (None) (None)
   (mkResult [104;116;116;112;58;47;47] [] [117;114;108;116;101;115;116] [108;111;111;107;111;117;116] [110;101;116] [108;111;111;107;111;117;116;46;110;101;116] [] [47;226;128;165;47;102;111;111] HHostName) (None);
  mkCase false [104;116;116;112;58;47;47;117;114;108;116;101;115;116;46;108;111;111;107;111;117;116;46;110;101;116;47;226;128;174;47;102;111;111;47;226;128;173;47;98;97;114] false false (None) (None)
   (mkResult [104;116;116;112;58;47;47] [] [117;114;108;116;101;115;116] [108;111;111;107;111;117;116] [110;101;116] [108;111;111;107;111;117;116;46;110;101;116] [] [47;226;128;174;47;102;111;111;47;226;128;173;47;98;97;114] HHostName) (None);
  mkCase false [104;116;116;112;58;47;47;117;114;108;116;101;115;116;46;108;111;111;107;111;117;116;46;110;101;116;47;228;189;160;229;165;189;228;189;160;229;165;189] false false (None) (None)
   (mkResult [104;116;116;112;58;47;47] [] [117;114;108;116;101;115;116] [108;111;111;107;111;117;116] [110;101;116] [108;111;111;107;111;117;116;46;110;101;116] [] [47;228;189;160;229;165;189;228;189;160;229;165;189] HHostName) (None);
  mkCase false [104;116;116;112;58;47;47;117;114;108;116;101;115;116;46;108;111;111;107;111;117;116;46;110;101;116;47;239;183;144;122;121;120] false false (None) (None)
   (mkResult [104;116;116;112;58;47;47] [] [117;114;108;116;101;115;116] [108;111;111;107;111;117;116] [110;101;116] [108;111;111;107;111;117;116;46;110;101;116] [] [47;239;183;144;122;121;120] HHostName) (None);
  mkCase false [104;116;116;112;58;47;47;117;114;108;116;101;115;116;46;108;111;111;107;111;117;116;46;110;101;116;47;239;187;191;47;102;111;111] false false (None) (None)
   (mkResult [104;116;116;112;58;47;47] [] [117;114;108;116;101;115;116] [108;111;111;107;111;117;116] [110;101;116] [108;111;111;107;111;117;116;46;110;101;116] [] [47;239;187;191;47;102;111;111] HHostName) (None);
  mkCase false [104;116;116;112;58;47;47;117;114;108;116;101;115;116;46;108;111;111;107;111;117;116;46;110;101;116;47;102;111;111] false false (None) (None)
   (mkResult [104;116;116;112;58;47;47] [] [117;114;108;116;101;115;116] [108;111;111;107;111;117;116] [110;101;116] [108;111;111;107;111;117;116;46;110;101;116] [] [47;102;111;111] HHostName) (None);
  mkCase false [104;116;116;112;58;47;47;117;114;108;116;101;115;116;46;108;111;111;107;111;117;116;46;110;101;116;47;102;111;111;32;32;32;32;98;97;114;47;63;32;32;32;102;111;111;32;32;32;61;32;32;32;98;97;114;32;32;32;32;32;35;32;32;32;32;102;111;111] false false (None) (None)
   (mkResult [104;116;116;112;58;47;47] [] [117;114;108;116;101;115;116] [108;111;111;107;111;117;116] [110;101;116] [108;111;111;107;111;117;116;46;110;101;116] [] [47;102;111;111;32;32;32;32;98;97;114;47;63;32;32;32;102;111;111;32;32;32;61;32;32;32;98;97;114;32;32;32;32;32;35;32;32;32;32;102;111;111] HHostName) (None);
  mkCase false [104;116;116;112;58;47;47;117;114;108;116;101;115;116;46;108;111;111;107;111;117;116;46;110;101;116;47;102;111;111;37] false false (None) (None)
   (mkResult [104;116;116;112;58;47;47] [] [117;114;108;116;101;115;116] [108;111;111;107;111;117;116] [110;101;116] [108;111;111;107;111;117;116;46;110;101;116] [] [47;102;111;111;37] HHostName) (None);
  mkCase false [104;116;116;112;58;47;47;117;114;108;116;101;115;116;46;108;111;111;107;111;117;116;46;110;101;116;47;102;111;111;37;48;48;37;53;49] false false (None) (None)
   (mkResult [104;116;116;112;58;47;47] [] [117;114;108;116;101;115;116] [108;111;111;107;111;117;116] [110;101;116] [108;111;111;107;111;117;116;46;110;101;116] [] [47;102;111;111;37;48;48;37;53;49] HHostName) (None);
  mkCase false [104;116;116;112;58;47;47;117;114;108;116;101;115;116;46;108;111;111;107;111;117;116;46;110;101;116;47;102;111;111;37;50] false false (None) (None)
   (mkResult [104;116;116;112;58;47;47] [] [117;114;108;116;101;115;116] [108;111;111;107;111;117;116] [110;101;116] [108;111;111;107;111;117;116;46;110;101;116] [] [47;102;111;111;37;50] HHostName) (None);
  mkCase false [104;116;116;112;58;47;47;117;114;108;116;101;115;116;46;108;111;111;107;111;117;116;46;110;101;116;47;102;111;111;37;50;69;104;116;109;108] false false (None) (None)
   (mkResult [104;116;116;112;58;47;47] [] [117;114;108;116;101;115;116] [108;111;111;107;111;117;116] [110;101;116] [108;111;111;107;111;117;116;46;110;101;116] [] [47;102;111;111;37;50;69;104;116;109;108] HHostName) (None);
  mkCase false [104;116;116;112;58;47;47;117;114;108;116;101;115;116;46;108;111;111;107;111;117;116;46;110;101;116;47;102;111;111;37;50;195;130;194;169;122;98;97;114] false false (None) (None)
   (mkResult [104;116;116;112;58;47;47] [] [117;114;108;116;101;115;116] [108;111;111;107;111;117;116] [110;101;116] [108;111;111;107;111;117;116;46;110;101;116] [] [47;102;111;111;37;50;195;130;194;169;122;98;97;114] HHostName) (None);
  mkCase false [104;116;116;112;58;47;47;117;114;108;116;101;115;116;46;108;111;111;107;111;117;116;46;110;101;116;47;102;111;111;37;50;102;98;97;114] false false (None) (None)
   (mkResult [104;116;116;112;58;47;47] [] [117;114;108;116;101;115;116] [108;111;111;107;111;117;116] [110;101;116] [108;111;111;107;111;117;116;46;110;101;116] [] [47;102;111;111;37;50;102;98;97;114] HHostName) (None);
  mkCase false [104;116;116;112;58;47;47;117;114;108;116;101;115;116;46;108;111;111;107;111;117;116;46;110;101;116;47;102;111;111;37;50;122;98;97;114] false false (None) (None)
   (mkResult [104;116;116;112;58;47;47] [] [117;114;108;116;101;115;116] [108;111;111;107;111;117;116] [110;101;116] [108;111;111;107;111;117;116;46;110;101;116] [] [47;102;111;111;37;50;122;98;97;114] HHostName) (None);
  mkCase false [104;116;116;112;58;47;47;117;114;108;116;101;115;116;46;108;111;111;107;111;117;116;46;110;101;116;47;102;111;111;37;51;102;98;97;114] false false (None) (None)
   (mkResult [104;116;116;112;58;47;47] [] [117;114;108;116;101;115;116] [108;111;111;107;111;117;116] [110;101;116] [108;111;111;107;111;117;116;46;110;101;116] [] [47;102;111;111;37;51;102;98;97;114] HHostName) (None);
  mkCase false [104;116;116;112;58;47;47;117;114;108;116;101;115;116;46;108;111;111;107;111;117;116;46;110;101;116;47;102;111;111;37;52;49;37;55;97] false false (None) (None)
   (mkResult [104;116;116;112;58;47;47] [] [117;114;108;116;101;115;116] [108;111;111;107;111;117;116] [110;101;116] [108;111;111;107;111;117;116;46;110;101;116] [] [47;102;111;111;37;52;49;37;55;97] HHostName) (None);
  mkCase false [104;116;116;112;58;47;47;117;114;108;116;101;115;116;46;108;111;111;107;111;117;116;46;110;101;116;47;102;111;111;47;37;50;101] false false (None) (None)
   (mkResult [104;116;116;112;58;47;47] [] [117;114;108;116;101;115;116] [108;111;111;107;111;117;116] [110;101;116] [108;111;111;107;111;117;116;46;110;101;116] [] [47;102;111;111;47;37;50;101] HHostName) (None);
  mkCase false [104;116;116;112;58;47;47;117;114;108;116;101;115;116;46;108;111;111;107;111;117;116;46;110;101;116;47;102;111;111;47;37;50;101;37;50] false false (None) (None)
   (mkResult [104;116;116;112;58;47;47] [] [117;114;108;116;101;115;116] [108;111;111;107;111;117;116] [110;101;116] [108;111;111;107;111;117;116;46;110;101;116] [] [47;102;111;111;47;37;50;101;37;50] HHostName) (None);
  mkCase false [104;116;116;112;58;47;47;117;114;108;116;101;115;116;46;108;111;111;107;111;117;116;46;110;101;116;47;102;111;111;47;37;50;101;46;47;37;50;101;37;50;101;47;46;37;50;101;47;37;50;101;46;98;97;114] false false (None) (None)
   (mkResult [104;116;116;112;58;47;47] [] [117;114;108;116;101;115;116] [108;111;111;107;111;117;116] [110;101;116] [108;111;111;107;111;117;116;46;110;101;116] [] [47;102;111;111;47;37;50;101;46;47;37;50;101;37;50;101;47;46;37;50;101;47;37;50;101;46;98;97;114] HHostName) (None);
  mkCase false [104;116;116;112;58;47;47;117;114;108;116;101;115;116;46;108;111;111;107;111;117;116;46;110;101;116;47;102;111;111;47;46] false false (None) (None)
   (mkResult [104;116;116;112;58;47;47] [] [117;114;108;116;101;115;116] [108;111;111;107;111;117;116] [110;101;116] [108;111;111;107;111;117;116;46;110;101;116] [] [47;102;111;111;47;46] HHostName) (None);
  mkCase false [104;116;116;112;58;47;47;117;114;108;116;101;115;116;46;108;111;111;107;111;117;116;46;110;101;116;47;102;111;111;47;46;46;47;46;46;47;46;46] false false (None) (None)
   (mkResult [104;116;116;112;58;47;47] [] [117;114;108;116;101;115;116] [108;111;111;107;111;117;116] [110;101;116] [108;111;111;107;111;117;116;46;110;101;116] [] [47;102;111;111;47;46;46;47;46;46;47;46;46] HHostName) (None);
  mkCase false [104;116;116;112;58;47;47;117;114;108;116;101;115;116;46;108;111;111;107;111;117;116;46;110;101;116;47;102;111;111;47;46;46;47;46;46;47;46;46;47;116;111;110] false false (None) (None)
   (mkResult [104;116;116;112;58;47;47] [] [117;114;108;116;101;115;116] [108;111;111;107;111;117;116] [110;101;116] [108;111;111;107;111;117;116;46;110;101;116] [] [47;102;111;111;47;46;46;47;46;46;47;46;46;47;116;111;110] HHostName) (None);
  mkCase false [104;116;116;112;58;47;47;117;114;108;116;101;115;116;46;108;111;111;107;111;117;116;46;110;101;116;47;102;111;111;47;46;46;98;97;114] false false (None) (None)
   (mkResult [104;116;116;112;58;47;47] [] [117;114;108;116;101;115;116] [108;111;111;107;111;117;116] [110;101;116] [108;111;111;107;111;117;116;46;110;101;116] [] [47;102;111;111;47;46;46;98;97;114] HHostName) (None);
  mkCase false [104;116;116;112;58;47;47;117;114;108;116;101;115;116;46;108;111;111;107;111;117;116;46;110;101;116;47;102;111;111;47;46;47] false false (None) (None)
   (mkResult [104;116;116;112;58;47;47] [] [117;114;108;116;101;115;116] [108;111;111;107;111;117;116] [110;101;116] [108;111;111;107;111;117;116;46;110;101;116] [] [47;102;111;111;47;46;47] HHostName) (None);
  mkCase false [104;116;116;112;58;47;47;117;114;108;116;101;115;116;46;108;111;111;107;111;117;116;46;110;101;116;47;102;111;111;47;98;97;114;47;46;46] false false (None) (None)
   (mkResult [104;116;116;112;58;47;47] [] [117;114;108;116;101;115;116] [108;111;111;107;111;117;116] [110;101;116] [108;111;111;107;111;117;116;46;110;101;116] [] [47;102;111;111;47;98;97;114;47;46;46] HHostName) (None);
  mkCase false [104;116;116;112;58;47;47;117;114;108;116;101;115;116;46;108;111;111;107;111;117;116;46;110;101;116;47;102;111;111;47;98;97;114;47;46;46;47] false false (None) (None)
   (mkResult [104;116;116;112;58;47;47] [] [117;114;108;116;101;115;116] [108;111;111;107;111;117;116] [110;101;116] [108;111;111;107;111;117;116;46;110;101;116] [] [47;102;111;111;47;98;97;114;47;46;46;47] HHostName) (None);
  mkCase false [104;116;116;112;58;47;47;117;114;108;116;101;115;116;46;108;111;111;107;111;117;116;46;110;101;116;47;102;111;111;47;98;97;114;47;46;46;47;116;111;110] false false (None) (None)
   (mkResult [104;116;116;112;58;47;47] [] [117;114;108;116;101;115;116] [108;111;111;107;111;117;116] [110;101;116] [108;111;111;107;111;117;116;46;110;101;116] [] [47;102;111;111;47;98;97;114;47;46;46;47;116;111;110] HHostName) (None);
  mkCase false [104;116;116;112;58;47;47;117;114;108;116;101;115;116;46;108;111;111;107;111;117;116;46;110;101;116;47;102;111;111;47;98;97;114;47;46;46;47;116;111;110;47;46;46;47;46;46;47;97] false false (None) (None)
   (mkResult [104;116;116;112;58;47;47] [] [117;114;108;116;101;115;116] [108;111;111;107;111;117;116] [110;101;116] [108;111;111;107;111;117;116;46;110;101;116] [] [47;102;111;111;47;98;97;114;47;46;46;47;116;111;110;47;46;46;47;46;46;47;97] HHostName) (None);
  mkCase false [104;116;116;112;58;47;47;117;114;108;116;101;115;116;46;108;111;111;107;111;117;116;46;110;101;116;47;102;111;111;47;98;97;114;47;47;46;46] false false (None) (None)
   (mkResult [104;116;116;112;58;47;47] [] [117;114;108;116;101;115;116] [108;111;111;107;111;117;116] [110;101;116] [108;111;111;107;111;117;116;46;110;101;116] [] [47;102;111;111;47;98;97;114;47;47;46;46] HHostName) (None);
  mkCase false [104;116;116;112;58;47;47;117;114;108;116;101;115;116;46;108;111;111;107;111;117;116;46;110;101;116;47;102;111;111;47;98;97;114;47;47;46;46;47;46;46] false false (None) (None)
   (mkResult [104;116;116;112;58;47;47] [] [117;114;108;116;101;115;116] [108;111;111;107;111;117;116] [110;101;116] [108;111;111;107;111;117;116;46;110;101;116] [] [47;102;111;111;47;98;97;114;47;47;46;46;47;46;46] HHostName) (None);
  mkCase false [104;116;116;112;58;47;47;117;114;108;116;101;115;116;46;108;111;111;107;111;117;116;46;110;101;116;47;102;111;111;63;98;97;114;61;98;97;122;35] false false (None) (None)
   (mkResult [104;116;116;112;58;47;47] [] [117;114;108;116;101;115;116] [108;111;111;107;111;117;116] [110;101;116] [108;111;111;107;111;117;116;46;110;101;116] [] [47;102;111;111;63;98;97;114;61;98;97;122;35] HHostName) (None);
  mkCase false [104;116;116;112;58;47;47;117;114;108;116;101;115;116;46;108;111;111;107;111;117;116;46;110;101;116;47;102;111;111;92;116;98;97;114] false false (None) (None)
   (mkResult [104;116;116;112;58;47;47] [] [117;114;108;116;101;115;116] [108;111;111;107;111;117;116] [110;101;116] [108;111;111;107;111;117;116;46;110;101;116] [] [47;102;111;111;92;116;98;97;114] HHostName) (None);
  mkCase false [104;116;116;112;58;47;47;117;114;108;116;101;115;116;46;108;111;111;107;111;117;116;46;110;101;116;47;102;111;111;9;239;191;189;37;57;49] false false (None) (None)
   (mkResult [104;116;116;112;58;47;47] [] [117;114;108;116;101;115;116] [108;111;111;107;111;117;116] [110;101;116] [108;111;111;107;111;117;116;46;110;101;116] [] [47;102;111;111;9;239;191;189;37;57;49] HHostName) (None);
  mkCase false [104;116;116;112;58;47;47;117;114;108;116;101;115;116;46;108;111;111;107;111;117;116;46;110;101;116;58;56;48;47] false false (None) (None)
   (mkResult [104;116;116;112;58;47;47] [] [117;114;108;116;101;115;116] [108;111;111;107;111;117;116] [110;101;116] [108;111;111;107;111;117;116;46;110;101;116] [56;48] [47] HHostName) (None);
  mkCase false [104;116;116;112;58;47;47;117;114;108;116;101;115;116;46;108;111;111;107;111;117;116;46;110;101;116;58;58;56;48;58;58;52;52;51;47] false false (None) (None)
   (mkResult [104;116;116;112;58;47;47] [] [] [] [] [] [] [] HNone) (Some ErrInvalidPort);
  mkCase false [104;116;116;112;58;47;47;117;114;108;116;101;115;116;46;108;111;111;107;111;117;116;46;110;101;116;58;58;61;61;56;48;58;58;61;61;52;52;51;58;58;47] false false (None) (None)
   (mkResult [104;116;116;112;58;47;47] [] [] [] [] [] [] [] HNone) (Some ErrInvalidPort);
  mkCase false [104;116;116;112;58;47;47;117;114;108;116;101;115;116;46;108;111;111;107;111;117;116;46;110;101;116;92;92;102;111;111;92;92;98;97;114] false false (None) (None)
   (mkResult [104;116;116;112;58;47;47] [] [117;114;108;116;101;115;116] [108;111;111;107;111;117;116] [110;101;116] [108;111;111;107;111;117;116;46;110;101;116] [] [92;92;102;111;111;92;92;98;97;114] HHostName) (None);
  mkCase false [104;116;116;112;58;47;47;117;114;108;116;101;115;116;46;108;111;111;107;111;117;116;46;110;101;116;226;169;180;56;48;47] false false (None) (None)
   (mkResult [104;116;116;112;58;47;47] [] [117;114;108;116;101;115;116;46;108;111;111;107;111;117;116] [110;101;116;226;169;180;56;48] [] [] [] [47] HHostName) (None);
  mkCase false [104;116;116;112;58;47;47;117;114;108;116;101;115;116;46;108;111;111;107;111;117;116;46;110;101;116;239;188;143;102;111;111;47] false false (None) (None)
   (mkResult [104;116;116;112;58;47;47] [] [] [] [] [] [] [47] HNone) (Some ErrInvalidChars);
  mkCase false [104;116;116;112;58;47;47;119;119;119;46;102;111;111;227;128;130;98;97;114;46;117;114;108;116;101;115;116;46;108;111;111;107;111;117;116;46;110;101;116] false false (None) (None)
   (mkResult [104;116;116;112;58;47;47] [] [119;119;119;46;102;111;111;227;128;130;98;97;114;46;117;114;108;116;101;115;116] [108;111;111;107;111;117;116] [110;101;116] [108;111;111;107;111;117;116;46;110;101;116] [] [] HHostName) (None);
  mkCase false [104;116;116;112;58;47;47;119;119;119;46;108;111;111;196;184;111;117;116;46;117;114;108;116;101;115;116;46;108;111;111;107;111;117;116;46;110;101;116] false false (None) (None)
   (mkResult [104;116;116;112;58;47;47] [] [119;119;119;46;108;111;111;196;184;111;117;116;46;117;114;108;116;101;115;116] [108;111;111;107;111;117;116] [110;101;116] [108;111;111;107;111;117;116;46;110;101;116] [] [] HHostName) (None);
  mkCase false [104;116;116;112;58;47;47;119;119;119;46;108;111;111;107;111;117;116;46;209;129;208;190;208;188;46;117;114;108;116;101;115;116;46;108;111;111;107;111;117;116;46;110;101;116] false false (None) (None)
   (mkResult [104;116;116;112;58;47;47] [] [119;119;119;46;108;111;111;107;111;117;116;46;209;129;208;190;208;188;46;117;114;108;116;101;115;116] [108;111;111;107;111;117;116] [110;101;116] [108;111;111;107;111;117;116;46;110;101;116] [] [] HHostName) (None);
  mkCase false [104;116;116;112;58;47;47;119;119;119;46;108;111;111;107;111;117;116;46;110;101;116;239;188;154;56;48;46;117;114;108;116;101;115;116;46;108;111;111;107;111;117;116;46;110;101;116] false false (None) (None)
   (mkResult [104;116;116;112;58;47;47] [] [] [] [] [] [] [] HNone) (Some ErrInvalidChars);
  mkCase false [104;116;116;112;58;47;47;119;119;119;46;108;111;111;107;111;117;116;226;128;167;110;101;116;46;117;114;108;116;101;115;116;46;108;111;111;107;111;117;116;46;110;101;116] false false (None) (None)
   (mkResult [104;116;116;112;58;47;47] [] [119;119;119;46;108;111;111;107;111;117;116;226;128;167;110;101;116;46;117;114;108;116;101;115;116] [108;111;111;107;111;117;116] [110;101;116] [108;111;111;107;111;117;116;46;110;101;116] [] [] HHostName) (None);
  mkCase false [104;116;116;112;58;47;47;119;119;119;226;128;165;117;114;108;116;101;115;116;46;108;111;111;107;111;117;116;46;110;101;116] false false (None) (None)
   (mkResult [104;116;116;112;58;47;47] [] [] [] [] [] [] [] HNone) (Some ErrInvalidChars);
  mkCase false [104;116;116;112;58;47;47;120;110;45;45;48;46;117;114;108;116;101;115;116;46;108;111;111;107;111;117;116;46;110;101;116] false false (Some [105;100;110;97;58;32;105;110;118;97;108;105;100;32;108;97;98;101;108;32;34;48;34]) (None)
   (mkResult [104;116;116;112;58;47;47] [] [] [] [] [] [] [] HNone) (Some (ErrIdna [105;100;110;97;58;32;105;110;118;97;108;105;100;32;108;97;98;101;108;32;34;48;34]));
  mkCase false [104;116;116;112;58;92;92;92;92;117;114;108;116;101;115;116;46;108;111;111;107;111;117;116;46;110;101;116;92;92;102;111;111] false false (None) (None)
   (mkResult [104;116;116;112;58;92;92;92;92] [] [117;114;108;116;101;115;116] [108;111;111;107;111;117;116] [110;101;116] [108;111;111;107;111;117;116;46;110;101;116] [] [92;92;102;111;111] HHostName) (None);
  mkCase false [104;116;116;112;58;47;47;47;92;47;92;47;92;47;92;47;117;114;108;116;101;115;116;46;108;111;111;107;111;117;116;46;110;101;116] false false (None) (None)
   (mkResult [104;116;116;112;58;47;47;47;92;47;92;47;92;47;92;47] [] [117;114;108;116;101;115;116] [108;111;111;107;111;117;116] [110;101;116] [108;111;111;107;111;117;116;46;110;101;116] [] [] HHostName) (None)].

Definition run_case (pub all : trie) (c : case) : bool :=
  match extract (mkIdna (fun _ => c_unicode_err c) (fun _ => c_to_puny c))
                (if c_private c then all else pub)
                (mkParams (c_url c) (c_ignore c) (c_puny c)) with
  | Ret (r, e) => result_eqb r (c_expected c) && err_eqb e (c_err c)
  | _ => false
  end.
Definition run_cases : list nat :=
  match build_trie public_rules, build_trie (public_rules ++ private_rules) with
  | Ret pub, Ret all =>
    map fst (filter (fun '(_, c) => negb (run_case pub all c))
                    (combine (seq 0 (length cases)) cases))
  | _, _ => [0%nat]
  end.

(** All 287 cases of the tables agree with the model. *)
Example repo_tests_pass : run_cases = [] /\ length cases = 287%nat.
Proof. split; vm_compute; reflexivity. Qed.
