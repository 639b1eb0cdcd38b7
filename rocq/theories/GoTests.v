(** The assertions of the unit tests in /repo, stated of the model. They are tests, not
    properties: they compare the model with outcomes that the code is known to have, since
    the tests pass upstream. Each example cites the test. The snapshots under
    /repo/testdata/snapshots are compared by tools/snapshots.py. *)
From Verif Require Import Base Types Univ TypeTable Wt Reify Consts Version LinkModel ConvertModel JsonModel JsonText JsonIO XmlModel XmlText.
From Coq Require Import List String Ascii ZArith.
Import ListNotations.
Local Open Scope string_scope.

(** json.Marshal, json.Unmarshal, xml.Marshal, xml.Unmarshal of a value of a named type. *)
Definition json_marshal (t : string) (v : val) : result jerr string :=
  bind (jenc true (TRef t) v) (fun o => Ok (JsonText.text false 0 o)).
Definition json_unmarshal (t s : string) : option (result jerr val) :=
  option_map (fun j => finish (jdec j (TRef t) (zero_of (TRef t)))) (parse s).
Definition xml_marshal (pretty : bool) (t : string) (v : val) : result xerr string :=
  bind (nenc (annotate v) (TRef t) false t) (fun els => Ok (XmlText.concat_map (xml_text pretty 0) els)).
Definition xml_unmarshal_as (t s : string) : option (result xerr val) :=
  option_map (fun x => @xdec go_limit x (TRef t) 0%N (zero_of (TRef t))) (xml_parse s).
Definition fails {E A} (r : result E A) : bool := match r with Err _ => true | Ok _ => false end.
Definition some_list {A} (l : list A) : ptr (slice A) := Some (Some l).

(** /repo/cyclonedx_json_test.go:28-33 *)
Example go_test_1 : json_marshal "EnvironmentVariableChoice" (reify_EnvironmentVariableChoice (mkEnvironmentVariableChoice None "")) = Ok "{}".
Proof. vm_compute. reflexivity. Qed.

(** /repo/cyclonedx_json_test.go:35-45 *)
Example go_test_2 : json_marshal "EnvironmentVariableChoice" (reify_EnvironmentVariableChoice (mkEnvironmentVariableChoice (Some (mkProperty "foo" "bar")) "")) = Ok "{""name"":""foo"",""value"":""bar""}".
Proof. vm_compute. reflexivity. Qed.

(** /repo/cyclonedx_json_test.go:47-52 *)
Example go_test_3 : json_marshal "EnvironmentVariableChoice" (reify_EnvironmentVariableChoice (mkEnvironmentVariableChoice None "foo")) = Ok """foo""".
Proof. vm_compute. reflexivity. Qed.

(** /repo/cyclonedx_json_test.go:54-65 *)
Example go_test_4 : json_marshal "EnvironmentVariableChoice" (reify_EnvironmentVariableChoice (mkEnvironmentVariableChoice (Some (mkProperty "foo" "bar")) "baz")) = Ok "{""name"":""foo"",""value"":""bar""}".
Proof. vm_compute. reflexivity. Qed.

(** /repo/cyclonedx_json_test.go:69-74 *)
Example go_test_5 : json_unmarshal "EnvironmentVariableChoice" "{}" = Some (Ok (reify_EnvironmentVariableChoice (mkEnvironmentVariableChoice None ""))).
Proof. vm_compute. reflexivity. Qed.

(** /repo/cyclonedx_json_test.go:76-84 *)
Example go_test_6 : json_unmarshal "EnvironmentVariableChoice" "{""name"":""foo"",""value"":""bar""}" = Some (Ok (reify_EnvironmentVariableChoice (mkEnvironmentVariableChoice (Some (mkProperty "foo" "bar")) ""))).
Proof. vm_compute. reflexivity. Qed.

(** /repo/cyclonedx_json_test.go:86-92 *)
Example go_test_7 : json_unmarshal "EnvironmentVariableChoice" """foo""" = Some (Ok (reify_EnvironmentVariableChoice (mkEnvironmentVariableChoice None "foo"))).
Proof. vm_compute. reflexivity. Qed.

(** /repo/cyclonedx_json_test.go:96-101 *)
Example go_test_8 : json_marshal "MLDatasetChoice" (reify_MLDatasetChoice zero_MLDatasetChoice) = Ok "{}".
Proof. vm_compute. reflexivity. Qed.

(** /repo/cyclonedx_json_test.go:103-108 *)
Example go_test_9 : json_marshal "MLDatasetChoice" (reify_MLDatasetChoice (mkMLDatasetChoice "foo" None)) = Ok "{""ref"":""foo""}".
Proof. vm_compute. reflexivity. Qed.

(** /repo/cyclonedx_json_test.go:110-120 *)
Example go_test_10 : json_marshal "MLDatasetChoice" (reify_MLDatasetChoice (mkMLDatasetChoice "" (Some (set_ComponentData_BOMRef "foo" (set_ComponentData_Name "bar" zero_ComponentData))))) = Ok "{""bom-ref"":""foo"",""name"":""bar""}".
Proof. vm_compute. reflexivity. Qed.

(** /repo/cyclonedx_json_test.go:122-133 *)
Example go_test_11 : json_marshal "MLDatasetChoice" (reify_MLDatasetChoice (mkMLDatasetChoice "foo" (Some (set_ComponentData_BOMRef "bar" (set_ComponentData_Name "baz" zero_ComponentData))))) = Ok "{""ref"":""foo""}".
Proof. vm_compute. reflexivity. Qed.

(** /repo/cyclonedx_json_test.go:137-142 *)
Example go_test_12 : json_unmarshal "MLDatasetChoice" "{}" = Some (Ok (reify_MLDatasetChoice zero_MLDatasetChoice)).
Proof. vm_compute. reflexivity. Qed.

(** /repo/cyclonedx_json_test.go:144-150 *)
Example go_test_13 : json_unmarshal "MLDatasetChoice" "{""ref"":""foo""}" = Some (Ok (reify_MLDatasetChoice (mkMLDatasetChoice "foo" None))).
Proof. vm_compute. reflexivity. Qed.

(** /repo/cyclonedx_json_test.go:152-160 *)
Example go_test_14 : json_unmarshal "MLDatasetChoice" "{""bom-ref"":""foo"",""name"":""bar""}" = Some (Ok (reify_MLDatasetChoice (mkMLDatasetChoice "" (Some (set_ComponentData_BOMRef "foo" (set_ComponentData_Name "bar" zero_ComponentData)))))).
Proof. vm_compute. reflexivity. Qed.

(** /repo/cyclonedx_json_test.go:162-168 *)
Example go_test_15 : json_unmarshal "MLDatasetChoice" "{""ref"":""foo"",""bom-ref"":""bar"",""name"":""baz""}" = Some (Ok (reify_MLDatasetChoice (mkMLDatasetChoice "foo" None))).
Proof. vm_compute. reflexivity. Qed.

(** /repo/cyclonedx_json_test.go:172-177 *)
Example go_test_16 : json_marshal "Evidence" (reify_Evidence zero_Evidence) = Ok "{}".
Proof. vm_compute. reflexivity. Qed.

(** /repo/cyclonedx_json_test.go:179-196 *)
Example go_test_17 : json_marshal "Evidence" (reify_Evidence (set_Evidence_Occurrences (some_list [set_EvidenceOccurrence_BOMRef "d6bf237e" (set_EvidenceOccurrence_Location "/path/to/component" zero_EvidenceOccurrence)]) zero_Evidence)) = Ok "{""occurrences"":[{""bom-ref"":""d6bf237e"",""location"":""/path/to/component""}]}".
Proof. vm_compute. reflexivity. Qed.

(** /repo/cyclonedx_json_test.go:198-227 *)
Example go_test_18 : json_marshal "Evidence" (reify_Evidence (set_Evidence_Identity (Some (mkEvidenceIdentityChoice None (some_list [(set_EvidenceIdentity_Field "purl" (set_EvidenceIdentity_Confidence (Some (FFin false 1 0)) (set_EvidenceIdentity_Methods (some_list [(mkEvidenceIdentityMethod "filename" (Some (FFin false 1 (-1))) "findbugs-project-3.0.0.jar"); (mkEvidenceIdentityMethod "ast-fingerprint" (Some (FFin false 9 (-1))) "61e4bc08251761c3a73b606b9110a65899cb7d44f3b14c81ebc1e67c98e1d9ab")]) (set_EvidenceIdentity_Tools (some_list ["bom-ref-of-tool-that-performed-analysis"]) zero_EvidenceIdentity))))]))) zero_Evidence)) = Ok "{""identity"":[{""field"":""purl"",""confidence"":1,""methods"":[{""technique"":""filename"",""confidence"":0.1,""value"":""findbugs-project-3.0.0.jar""},{""technique"":""ast-fingerprint"",""confidence"":0.9,""value"":""61e4bc08251761c3a73b606b9110a65899cb7d44f3b14c81ebc1e67c98e1d9ab""}],""tools"":[""bom-ref-of-tool-that-performed-analysis""]}]}".
Proof. vm_compute. reflexivity. Qed.

(** /repo/cyclonedx_json_test.go:231-236 *)
Example go_test_19 : json_unmarshal "Evidence" "{}" = Some (Ok (reify_Evidence zero_Evidence)).
Proof. vm_compute. reflexivity. Qed.

(** /repo/cyclonedx_json_test.go:263-308 *)
Example go_test_20 : json_unmarshal "Evidence" "{""identity"":{""field"":""purl"",""confidence"":1,""methods"":[{""technique"":""filename"",""confidence"":0.1,""value"":""findbugs-project-3.0.0.jar""},{""technique"":""ast-fingerprint"",""confidence"":0.9,""value"":""61e4bc08251761c3a73b606b9110a65899cb7d44f3b14c81ebc1e67c98e1d9ab""}],""tools"":[""bom-ref-of-tool-that-performed-analysis""]}}" = Some (Ok (reify_Evidence (set_Evidence_Identity (Some (mkEvidenceIdentityChoice (Some (set_EvidenceIdentity_Field "purl" (set_EvidenceIdentity_Confidence (Some (FFin false 1 0)) (set_EvidenceIdentity_Methods (some_list [(mkEvidenceIdentityMethod "filename" (Some (FFin false 1 (-1))) "findbugs-project-3.0.0.jar"); (mkEvidenceIdentityMethod "ast-fingerprint" (Some (FFin false 9 (-1))) "61e4bc08251761c3a73b606b9110a65899cb7d44f3b14c81ebc1e67c98e1d9ab")]) (set_EvidenceIdentity_Tools (some_list ["bom-ref-of-tool-that-performed-analysis"]) zero_EvidenceIdentity))))) None)) zero_Evidence))).
Proof. vm_compute. reflexivity. Qed.

(** /repo/cyclonedx_json_test.go:310-337 *)
Example go_test_21 : json_unmarshal "Evidence" "{""identity"": [ {""field"": ""purl"", ""confidence"": 1}, {""field"": ""name"", ""confidence"": 0.1} ]}" = Some (Ok (reify_Evidence (set_Evidence_Identity (Some (mkEvidenceIdentityChoice None (some_list [(set_EvidenceIdentity_Field "purl" (set_EvidenceIdentity_Confidence (Some (FFin false 1 0)) zero_EvidenceIdentity)); (set_EvidenceIdentity_Field "name" (set_EvidenceIdentity_Confidence (Some (FFin false 1 (-1))) zero_EvidenceIdentity))]))) zero_Evidence))).
Proof. vm_compute. reflexivity. Qed.

(** /repo/cyclonedx_json_test.go:386-395 *)
Example go_test_22 : json_marshal "Dependency" (reify_Dependency (set_Dependency_Ref "crypto-library" (set_Dependency_Dependencies None (set_Dependency_Provides (some_list ["aes128gcm"; "sha256"]) zero_Dependency)))) = Ok "{""ref"":""crypto-library"",""provides"":[""aes128gcm"",""sha256""]}".
Proof. vm_compute. reflexivity. Qed.

(** /repo/cyclonedx_json_test.go:397-408 *)
Example go_test_23 : json_marshal "Dependency" (reify_Dependency (set_Dependency_Ref "crypto-library" (set_Dependency_Dependencies (some_list ["base-library"]) (set_Dependency_Provides (some_list ["aes128gcm"]) zero_Dependency)))) = Ok "{""ref"":""crypto-library"",""dependsOn"":[""base-library""],""provides"":[""aes128gcm""]}".
Proof. vm_compute. reflexivity. Qed.

(** /repo/cyclonedx_json_test.go:435-446 *)
Example go_test_24 : json_unmarshal "Dependency" "{""ref"":""crypto-library"",""dependsOn"":[""base-library""],""provides"":[""aes128gcm""]}" = Some (Ok (reify_Dependency (set_Dependency_Ref "crypto-library" (set_Dependency_Dependencies (some_list ["base-library"]) (set_Dependency_Provides (some_list ["aes128gcm"]) zero_Dependency))))).
Proof. vm_compute. reflexivity. Qed.

(** /repo/cyclonedx_xml_test.go:28-33 *)
Example go_test_25 : xml_marshal false "BOMReference" (VStr "") = Ok "<BOMReference ref=""""></BOMReference>".
Proof. vm_compute. reflexivity. Qed.

(** /repo/cyclonedx_xml_test.go:35-40 *)
Example go_test_26 : xml_marshal false "BOMReference" (VStr "bomRef") = Ok "<BOMReference ref=""bomRef""></BOMReference>".
Proof. vm_compute. reflexivity. Qed.

(** /repo/cyclonedx_xml_test.go:44-49 *)
Example go_test_27 : xml_unmarshal_as "BOMReference" "<BOMReference ref=""""></BOMReference>" = Some (Ok (VStr "")).
Proof. vm_compute. reflexivity. Qed.

(** /repo/cyclonedx_xml_test.go:51-56 *)
Example go_test_28 : xml_unmarshal_as "BOMReference" "<BOMReference ref=""bomRef""></BOMReference>" = Some (Ok (VStr "bomRef")).
Proof. vm_compute. reflexivity. Qed.

(** /repo/cyclonedx_xml_test.go:60-65 *)
Example go_test_29 : xml_marshal false "Copyright" (reify_Copyright (mkCopyright "")) = Ok "<Copyright></Copyright>".
Proof. vm_compute. reflexivity. Qed.

(** /repo/cyclonedx_xml_test.go:67-72 *)
Example go_test_30 : xml_marshal false "Copyright" (reify_Copyright (mkCopyright "copyright")) = Ok "<Copyright>copyright</Copyright>".
Proof. vm_compute. reflexivity. Qed.

(** /repo/cyclonedx_xml_test.go:76-81 *)
Example go_test_31 : xml_unmarshal_as "Copyright" "<Copyright></Copyright>" = Some (Ok (reify_Copyright (mkCopyright ""))).
Proof. vm_compute. reflexivity. Qed.

(** /repo/cyclonedx_xml_test.go:83-88 *)
Example go_test_32 : xml_unmarshal_as "Copyright" "<Copyright>copyright</Copyright>" = Some (Ok (reify_Copyright (mkCopyright "copyright"))).
Proof. vm_compute. reflexivity. Qed.

(** /repo/cyclonedx_xml_test.go:92-97 *)
Example go_test_33 : xml_marshal false "Dependency" (reify_Dependency (set_Dependency_Ref "" (set_Dependency_Dependencies None (set_Dependency_Provides None zero_Dependency)))) = Ok "<Dependency ref=""""></Dependency>".
Proof. vm_compute. reflexivity. Qed.

(** /repo/cyclonedx_xml_test.go:99-107 *)
Example go_test_34 : xml_marshal false "Dependency" (reify_Dependency (set_Dependency_Ref "dependencyRef" (set_Dependency_Dependencies (some_list []) (set_Dependency_Provides None zero_Dependency)))) = Ok "<Dependency ref=""dependencyRef""></Dependency>".
Proof. vm_compute. reflexivity. Qed.

(** /repo/cyclonedx_xml_test.go:109-119 *)
Example go_test_35 : xml_marshal false "Dependency" (reify_Dependency (set_Dependency_Ref "dependencyRef" (set_Dependency_Dependencies (some_list ["transitiveDependencyRef"]) (set_Dependency_Provides None zero_Dependency)))) = Ok "<Dependency ref=""dependencyRef""><dependency ref=""transitiveDependencyRef""></dependency></Dependency>".
Proof. vm_compute. reflexivity. Qed.

(** /repo/cyclonedx_xml_test.go:123-129 *)
Example go_test_36 : xml_unmarshal_as "Dependency" "<Dependency></Dependency>" = Some (Ok (reify_Dependency zero_Dependency)).
Proof. vm_compute. reflexivity. Qed.

(** /repo/cyclonedx_xml_test.go:131-137 *)
Example go_test_37 : xml_unmarshal_as "Dependency" "<Dependency ref=""dependencyRef""></Dependency>" = Some (Ok (reify_Dependency (set_Dependency_Ref "dependencyRef" (set_Dependency_Dependencies None (set_Dependency_Provides None zero_Dependency))))).
Proof. vm_compute. reflexivity. Qed.

(** /repo/cyclonedx_xml_test.go:139-146 *)
Example go_test_38 : xml_unmarshal_as "Dependency" "<Dependency ref=""dependencyRef""><dependency ref=""transitiveDependencyRef""></dependency></Dependency>" = Some (Ok (reify_Dependency (set_Dependency_Ref "dependencyRef" (set_Dependency_Dependencies (some_list ["transitiveDependencyRef"]) (set_Dependency_Provides None zero_Dependency))))).
Proof. vm_compute. reflexivity. Qed.

(** /repo/cyclonedx_xml_test.go:150-155 *)
Example go_test_39 : xml_marshal false "EnvironmentVariables" (VSlice (Some [])) = Ok "".
Proof. vm_compute. reflexivity. Qed.

(** /repo/cyclonedx_xml_test.go:157-173 *)
Example go_test_40 : xml_marshal false "EnvironmentVariables" (VSlice (Some [reify_EnvironmentVariableChoice (mkEnvironmentVariableChoice (Some (mkProperty "foo" "bar")) ""); reify_EnvironmentVariableChoice (mkEnvironmentVariableChoice None "baz")])) = Ok "<EnvironmentVariables><environmentVar name=""foo"">bar</environmentVar><value>baz</value></EnvironmentVariables>".
Proof. vm_compute. reflexivity. Qed.

(** /repo/cyclonedx_xml_test.go:175-187 *)
Example go_test_41 : fails (xml_marshal false "EnvironmentVariables" (VSlice (Some [reify_EnvironmentVariableChoice (mkEnvironmentVariableChoice (Some (mkProperty "foo" "bar")) "baz")]))) = true.
Proof. vm_compute. reflexivity. Qed.

(** /repo/cyclonedx_xml_test.go:199-214 *)
Example go_test_42 : xml_unmarshal_as "EnvironmentVariables" "
<EnvironmentVariables>
  <environmentVar name=""foo"">bar</environmentVar>
  <value>baz</value>
</EnvironmentVariables>" = Some (Ok (VSlice (Some [reify_EnvironmentVariableChoice (mkEnvironmentVariableChoice (Some (mkProperty "foo" "bar")) ""); reify_EnvironmentVariableChoice (mkEnvironmentVariableChoice None "baz")]))).
Proof. vm_compute. reflexivity. Qed.

(** /repo/cyclonedx_xml_test.go:217-242 *)
Example go_test_43 : xml_marshal true "Licenses" (VSlice (Some [reify_LicenseChoice (set_LicenseChoice_License None (set_LicenseChoice_Expression "expressionValue1" zero_LicenseChoice)); reify_LicenseChoice (set_LicenseChoice_License (Some (set_License_ID "licenseID" (set_License_URL "licenseURL" zero_License))) (set_LicenseChoice_Expression "" zero_LicenseChoice)); reify_LicenseChoice (set_LicenseChoice_License None (set_LicenseChoice_Expression "expressionValue2" zero_LicenseChoice))])) = Ok "<Licenses>
  <expression>expressionValue1</expression>
  <license>
    <id>licenseID</id>
    <url>licenseURL</url>
  </license>
  <expression>expressionValue2</expression>
</Licenses>".
Proof. vm_compute. reflexivity. Qed.

(** /repo/cyclonedx_xml_test.go:244-254 *)
Example go_test_44 : fails (xml_marshal false "Licenses" (VSlice (Some [reify_LicenseChoice (set_LicenseChoice_License (Some (set_License_ID "licenseID" (set_License_URL "licenseURL" zero_License))) (set_LicenseChoice_Expression "expressionValue" zero_LicenseChoice))]))) = true.
Proof. vm_compute. reflexivity. Qed.

(** /repo/cyclonedx_xml_test.go:256-260 *)
Example go_test_45 : xml_marshal false "Licenses" (VSlice (Some [])) = Ok "".
Proof. vm_compute. reflexivity. Qed.

(** /repo/cyclonedx_xml_test.go:263-285 *)
Example go_test_46 : xml_unmarshal_as "Licenses" "
<Licenses>
  <expression>expressionValue1</expression>
  <license>
    <id>licenseID</id>
    <url>licenseURL</url>
  </license>
  <expression>expressionValue2</expression>
</Licenses>" = Some (Ok (VSlice (Some [reify_LicenseChoice (set_LicenseChoice_License None (set_LicenseChoice_Expression "expressionValue1" zero_LicenseChoice)); reify_LicenseChoice (set_LicenseChoice_License (Some (set_License_ID "licenseID" (set_License_URL "licenseURL" zero_License))) (set_LicenseChoice_Expression "" zero_LicenseChoice)); reify_LicenseChoice (set_LicenseChoice_License None (set_LicenseChoice_Expression "expressionValue2" zero_LicenseChoice))]))).
Proof. vm_compute. reflexivity. Qed.

(** /repo/cyclonedx_xml_test.go:293-296 *)
Example go_test_47 : option_map fails (xml_unmarshal_as "Licenses" "<Licenses><somethingElse>expressionValue</somethingElse></Licenses>") = Some true.
Proof. vm_compute. reflexivity. Qed.

(** /repo/cyclonedx_xml_test.go:300-305 *)
Example go_test_48 : xml_marshal false "MLDatasetChoice" (reify_MLDatasetChoice zero_MLDatasetChoice) = Ok "".
Proof. vm_compute. reflexivity. Qed.

(** /repo/cyclonedx_xml_test.go:307-312 *)
Example go_test_49 : xml_marshal false "MLDatasetChoice" (reify_MLDatasetChoice (mkMLDatasetChoice "foo" None)) = Ok "<MLDatasetChoice><ref>foo</ref></MLDatasetChoice>".
Proof. vm_compute. reflexivity. Qed.

(** /repo/cyclonedx_xml_test.go:314-324 *)
Example go_test_50 : xml_marshal false "MLDatasetChoice" (reify_MLDatasetChoice (mkMLDatasetChoice "" (Some (set_ComponentData_BOMRef "foo" (set_ComponentData_Name "bar" zero_ComponentData))))) = Ok "<MLDatasetChoice bom-ref=""foo""><name>bar</name></MLDatasetChoice>".
Proof. vm_compute. reflexivity. Qed.

(** /repo/cyclonedx_xml_test.go:326-337 *)
Example go_test_51 : xml_marshal false "MLDatasetChoice" (reify_MLDatasetChoice (mkMLDatasetChoice "foo" (Some (set_ComponentData_BOMRef "bar" (set_ComponentData_Name "baz" zero_ComponentData))))) = Ok "<MLDatasetChoice><ref>foo</ref></MLDatasetChoice>".
Proof. vm_compute. reflexivity. Qed.

(** /repo/cyclonedx_xml_test.go:341-346 *)
Example go_test_52 : xml_unmarshal_as "MLDatasetChoice" "<MLDatasetChoice></MLDatasetChoice>" = Some (Ok (reify_MLDatasetChoice zero_MLDatasetChoice)).
Proof. vm_compute. reflexivity. Qed.

(** /repo/cyclonedx_xml_test.go:348-354 *)
Example go_test_53 : xml_unmarshal_as "MLDatasetChoice" "<MLDatasetChoice><ref>foo</ref></MLDatasetChoice>" = Some (Ok (reify_MLDatasetChoice (mkMLDatasetChoice "foo" None))).
Proof. vm_compute. reflexivity. Qed.

(** /repo/cyclonedx_xml_test.go:356-364 *)
Example go_test_54 : xml_unmarshal_as "MLDatasetChoice" "<MLDatasetChoice bom-ref=""foo""><name>bar</name></MLDatasetChoice>" = Some (Ok (reify_MLDatasetChoice (mkMLDatasetChoice "" (Some (set_ComponentData_BOMRef "foo" (set_ComponentData_Name "bar" zero_ComponentData)))))).
Proof. vm_compute. reflexivity. Qed.

(** /repo/cyclonedx_xml_test.go:366-372 *)
Example go_test_55 : xml_unmarshal_as "MLDatasetChoice" "<MLDatasetChoice bom-ref=""bar""><ref>foo</ref><name>baz</name></MLDatasetChoice>" = Some (Ok (reify_MLDatasetChoice (mkMLDatasetChoice "foo" None))).
Proof. vm_compute. reflexivity. Qed.

(** /repo/cyclonedx_xml_test.go:376-381 *)
Example go_test_56 : xml_marshal false "Evidence" (reify_Evidence zero_Evidence) = Ok "".
Proof. vm_compute. reflexivity. Qed.

(** /repo/cyclonedx_xml_test.go:383-400 *)
Example go_test_57 : xml_marshal false "Evidence" (reify_Evidence (set_Evidence_Occurrences (some_list [set_EvidenceOccurrence_BOMRef "d6bf237e" (set_EvidenceOccurrence_Location "/path/to/component" zero_EvidenceOccurrence)]) zero_Evidence)) = Ok "<Evidence><occurrences><occurrence bom-ref=""d6bf237e""><location>/path/to/component</location></occurrence></occurrences></Evidence>".
Proof. vm_compute. reflexivity. Qed.

(** /repo/cyclonedx_xml_test.go:402-430 *)
Example go_test_58 : xml_marshal false "Evidence" (reify_Evidence (set_Evidence_Callstack (Some (mkCallstack (some_list [set_CallstackFrame_Module "Logger.class" (set_CallstackFrame_Function "logMessage" (set_CallstackFrame_Parameters (some_list ["com.acme.HelloWorld"; "Level.INFO"]) (set_CallstackFrame_Line (Some 150%Z) (set_CallstackFrame_Column (Some 17%Z) zero_CallstackFrame))))]))) zero_Evidence)) = Ok "<Evidence><callstack><frames><frame><module>Logger.class</module><function>logMessage</function><parameters><parameter>com.acme.HelloWorld</parameter><parameter>Level.INFO</parameter></parameters><line>150</line><column>17</column></frame></frames></callstack></Evidence>".
Proof. vm_compute. reflexivity. Qed.

(** /repo/cyclonedx_xml_test.go:452-466 *)
Example go_test_59 : xml_marshal false "Evidence" (reify_Evidence (set_Evidence_Copyright (some_list [mkCopyright "Copyright 2012 Google Inc. All Rights Reserved."; mkCopyright "Copyright (C) 2004,2005 Dave Brosius <dbrosius@users.sourceforge.net>"]) zero_Evidence)) = Ok "<Evidence><copyright><text>Copyright 2012 Google Inc. All Rights Reserved.</text><text>Copyright (C) 2004,2005 Dave Brosius &lt;dbrosius@users.sourceforge.net&gt;</text></copyright></Evidence>".
Proof. vm_compute. reflexivity. Qed.

(** /repo/cyclonedx_xml_test.go:468-497 *)
Example go_test_60 : xml_marshal false "Evidence" (reify_Evidence (set_Evidence_Identity (Some (mkEvidenceIdentityChoice None (some_list [(set_EvidenceIdentity_Field "purl" (set_EvidenceIdentity_Confidence (Some (FFin false 1 0)) (set_EvidenceIdentity_Methods (some_list [(mkEvidenceIdentityMethod "filename" (Some (FFin false 1 (-1))) "findbugs-project-3.0.0.jar"); (mkEvidenceIdentityMethod "ast-fingerprint" (Some (FFin false 9 (-1))) "61e4bc08251761c3a73b606b9110a65899cb7d44f3b14c81ebc1e67c98e1d9ab")]) (set_EvidenceIdentity_Tools (some_list ["bom-ref-of-tool-that-performed-analysis"]) zero_EvidenceIdentity))))]))) zero_Evidence)) = Ok "<Evidence><identity><field>purl</field><confidence>1</confidence><methods><method><technique>filename</technique><confidence>0.1</confidence><value>findbugs-project-3.0.0.jar</value></method><method><technique>ast-fingerprint</technique><confidence>0.9</confidence><value>61e4bc08251761c3a73b606b9110a65899cb7d44f3b14c81ebc1e67c98e1d9ab</value></method></methods><tools><tool ref=""bom-ref-of-tool-that-performed-analysis""></tool></tools></identity></Evidence>".
Proof. vm_compute. reflexivity. Qed.

(** /repo/cyclonedx_xml_test.go:501-506 *)
Example go_test_61 : xml_unmarshal_as "Evidence" "<evidence></evidence>" = Some (Ok (reify_Evidence zero_Evidence)).
Proof. vm_compute. reflexivity. Qed.

(** /repo/cyclonedx_xml_test.go:533-585 *)
Example go_test_62 : xml_unmarshal_as "Evidence" "
<evidence>
	<callstack><frames><frame><module>Logger.class</module><function>logMessage</function><parameters><parameter>com.acme.HelloWorld</parameter><parameter>Level.INFO</parameter></parameters><line>150</line><column>17</column></frame></frames></callstack>
</evidence>" = Some (Ok (reify_Evidence (set_Evidence_Callstack (Some (mkCallstack (some_list [set_CallstackFrame_Module "Logger.class" (set_CallstackFrame_Function "logMessage" (set_CallstackFrame_Parameters (some_list ["com.acme.HelloWorld"; "Level.INFO"]) (set_CallstackFrame_Line (Some 150%Z) (set_CallstackFrame_Column (Some 17%Z) zero_CallstackFrame))))]))) zero_Evidence))).
Proof. vm_compute. reflexivity. Qed.

(** /repo/cyclonedx_xml_test.go:617-634 *)
Example go_test_63 : xml_unmarshal_as "Evidence" "
<evidence>
	<copyright>
		<text><![CDATA[Copyright 2012 Google Inc. All Rights Reserved.]]></text>
		<text><![CDATA[Copyright (C) 2004,2005 Dave Brosius <dbrosius@users.sourceforge.net>]]></text>
	</copyright>
</evidence>" = Some (Ok (reify_Evidence (set_Evidence_Copyright (some_list [mkCopyright "Copyright 2012 Google Inc. All Rights Reserved."; mkCopyright "Copyright (C) 2004,2005 Dave Brosius <dbrosius@users.sourceforge.net>"]) zero_Evidence))).
Proof. vm_compute. reflexivity. Qed.

(** /repo/cyclonedx_xml_test.go:636-685 *)
Example go_test_64 : xml_unmarshal_as "Evidence" "
<evidence>
<identity><field>purl</field><confidence>1</confidence><methods><method><technique>filename</technique><confidence>0.1</confidence><value>findbugs-project-3.0.0.jar</value></method><method><technique>ast-fingerprint</technique><confidence>0.9</confidence><value>61e4bc08251761c3a73b606b9110a65899cb7d44f3b14c81ebc1e67c98e1d9ab</value></method></methods><tools><tool ref=""bom-ref-of-tool-that-performed-analysis""></tool></tools></identity></evidence>" = Some (Ok (reify_Evidence (set_Evidence_Identity (Some (mkEvidenceIdentityChoice None (some_list [(set_EvidenceIdentity_Field "purl" (set_EvidenceIdentity_Confidence (Some (FFin false 1 0)) (set_EvidenceIdentity_Methods (some_list [(mkEvidenceIdentityMethod "filename" (Some (FFin false 1 (-1))) "findbugs-project-3.0.0.jar"); (mkEvidenceIdentityMethod "ast-fingerprint" (Some (FFin false 9 (-1))) "61e4bc08251761c3a73b606b9110a65899cb7d44f3b14c81ebc1e67c98e1d9ab")]) (set_EvidenceIdentity_Tools (some_list ["bom-ref-of-tool-that-performed-analysis"]) zero_EvidenceIdentity))))]))) zero_Evidence))).
Proof. vm_compute. reflexivity. Qed.

(** /repo/cyclonedx_xml_test.go:687-713 *)
Example go_test_65 : xml_unmarshal_as "Evidence" "
<evidence>
	<identity>
		<field>purl</field>
		<confidence>1</confidence>
	</identity>
	<identity>
		<field>name</field>
		<confidence>0.1</confidence>
	</identity>
</evidence>" = Some (Ok (reify_Evidence (set_Evidence_Identity (Some (mkEvidenceIdentityChoice None (some_list [(set_EvidenceIdentity_Field "purl" (set_EvidenceIdentity_Confidence (Some (FFin false 1 0)) zero_EvidenceIdentity)); (set_EvidenceIdentity_Field "name" (set_EvidenceIdentity_Confidence (Some (FFin false 1 (-1))) zero_EvidenceIdentity))]))) zero_Evidence))).
Proof. vm_compute. reflexivity. Qed.

(** /repo/decode_test.go:33-37 *)
Example go_test_66 : fails (xml_unmarshal xmlNamespaces "invalid" zero_BOM) = true.
Proof. vm_compute. reflexivity. Qed.

(** /repo/decode_test.go:39-43 *)
Example go_test_67 : fails (unmarshal_bom "{}invalid" zero_BOM) = true.
Proof. vm_compute. reflexivity. Qed.

(** /repo/decode_test.go:45-84 *)
Example go_test_68 : match xml_unmarshal xmlNamespaces "<?xml version=""1.0""?><bom version=""1"" xmlns=""http://cyclonedx.org/schema/bom/1.0""></bom>" zero_BOM with Ok b => Some (BOM_SpecVersion b) | Err _ => None end = Some (SpecVersion1_0).
Proof. vm_compute. reflexivity. Qed.

(** /repo/decode_test.go:45-84 *)
Example go_test_69 : match xml_unmarshal xmlNamespaces "<?xml version=""1.0""?><bom version=""1"" xmlns=""http://cyclonedx.org/schema/bom/1.1""></bom>" zero_BOM with Ok b => Some (BOM_SpecVersion b) | Err _ => None end = Some (SpecVersion1_1).
Proof. vm_compute. reflexivity. Qed.

(** /repo/decode_test.go:45-84 *)
Example go_test_70 : match xml_unmarshal xmlNamespaces "<?xml version=""1.0""?><bom version=""1"" xmlns=""http://cyclonedx.org/schema/bom/1.2""></bom>" zero_BOM with Ok b => Some (BOM_SpecVersion b) | Err _ => None end = Some (SpecVersion1_2).
Proof. vm_compute. reflexivity. Qed.

(** /repo/decode_test.go:45-84 *)
Example go_test_71 : match xml_unmarshal xmlNamespaces "<?xml version=""1.0""?><bom version=""1"" xmlns=""http://cyclonedx.org/schema/bom/1.3""></bom>" zero_BOM with Ok b => Some (BOM_SpecVersion b) | Err _ => None end = Some (SpecVersion1_3).
Proof. vm_compute. reflexivity. Qed.

(** /repo/decode_test.go:45-84 *)
Example go_test_72 : match xml_unmarshal xmlNamespaces "<?xml version=""1.0""?><bom version=""1"" xmlns=""http://cyclonedx.org/schema/bom/1.4""></bom>" zero_BOM with Ok b => Some (BOM_SpecVersion b) | Err _ => None end = Some (SpecVersion1_4).
Proof. vm_compute. reflexivity. Qed.

(** /repo/decode_test.go:45-84 *)
Example go_test_73 : match xml_unmarshal xmlNamespaces "<?xml version=""1.0""?><bom version=""1"" xmlns=""http://cyclonedx.org/schema/bom/666""></bom>" zero_BOM with Ok b => Some (BOM_SpecVersion b) | Err _ => None end = Some (0%Z).
Proof. vm_compute. reflexivity. Qed.

(** /repo/encode_test.go:36-65 *)
Example go_test_74 : json_encode_text true true (set_BOM_Metadata (Some (set_Metadata_Authors (some_list [set_OrganizationalContact_Name "authorName" zero_OrganizationalContact]) zero_Metadata)) NewBOM) = Ok "{
  ""$schema"": ""http://cyclonedx.org/schema/bom-1.7.schema.json"",
  ""bomFormat"": ""CycloneDX"",
  ""specVersion"": ""1.7"",
  ""version"": 1,
  ""metadata"": {
    ""authors"": [
      {
        ""name"": ""authorName""
      }
    ]
  }
}
".
Proof. vm_compute. reflexivity. Qed.

(** /repo/encode_test.go:67-97 *)
Example go_test_75 : json_encode_text true true (set_BOM_Metadata (Some (set_Metadata_Authors (some_list [set_OrganizationalContact_Name "some&<""Name" zero_OrganizationalContact]) zero_Metadata)) NewBOM) = Ok "{
  ""$schema"": ""http://cyclonedx.org/schema/bom-1.7.schema.json"",
  ""bomFormat"": ""CycloneDX"",
  ""specVersion"": ""1.7"",
  ""version"": 1,
  ""metadata"": {
    ""authors"": [
      {
        ""name"": ""some\u0026\u003c\""Name""
      }
    ]
  }
}
".
Proof. vm_compute. reflexivity. Qed.

(** /repo/encode_test.go:99-129 *)
Example go_test_76 : json_encode_text true false (set_BOM_Metadata (Some (set_Metadata_Authors (some_list [set_OrganizationalContact_Name "some+<&""Name" zero_OrganizationalContact]) zero_Metadata)) NewBOM) = Ok "{
  ""$schema"": ""http://cyclonedx.org/schema/bom-1.7.schema.json"",
  ""bomFormat"": ""CycloneDX"",
  ""specVersion"": ""1.7"",
  ""version"": 1,
  ""metadata"": {
    ""authors"": [
      {
        ""name"": ""some+<&\""Name""
      }
    ]
  }
}
".
Proof. vm_compute. reflexivity. Qed.

(** /repo/encode_test.go:131-172 *)
Example go_test_77 : xml_encode_text true (set_BOM_Metadata (Some (set_Metadata_Authors (some_list [set_OrganizationalContact_Name "authorName" zero_OrganizationalContact]) (set_Metadata_Properties (some_list [mkProperty "XML" "<xml>in here</xml>"; mkProperty "Specials" "Special chars: < & > """]) zero_Metadata))) NewBOM) = Ok "<?xml version=""1.0"" encoding=""UTF-8""?>
<bom xmlns=""http://cyclonedx.org/schema/bom/1.7"" version=""1"">
  <metadata>
    <authors>
      <author>
        <name>authorName</name>
      </author>
    </authors>
    <properties>
      <property name=""XML"">&lt;xml&gt;in here&lt;/xml&gt;</property>
      <property name=""Specials"">Special chars: &lt; &amp; &gt; &#34;</property>
    </properties>
  </metadata>
</bom>".
Proof. vm_compute. reflexivity. Qed.

(** /repo/encode_test.go:174-185 *)
Example go_test_78 : fails (json_encode_version_text false true SpecVersion1_0 NewBOM) = true.
Proof. vm_compute. reflexivity. Qed.

(** /repo/encode_test.go:174-185 *)
Example go_test_79 : fails (json_encode_version_text false true SpecVersion1_1 NewBOM) = true.
Proof. vm_compute. reflexivity. Qed.

(** /repo/link_test.go:28-42 *)
Example go_test_80 : forallb (fun s => match NewBOMLink s 1 ElemNil with Ret (Err _) => true | _ => false end) [""; "50b69bf2"; "50b69bf2-fd4f"; "50b69bf2-fd4f-400e-9522"; "50b69bf2-fd4f-400e-9522-43badebb14ca"; "uuid:50b69bf2-fd4f-400e-9522-43badebb14ca"; "urn:50b69bf2-fd4f-400e-9522-43badebb14ca"] = true.
Proof. vm_compute. reflexivity. Qed.

(** /repo/link_test.go:44-50 *)
Example go_test_81 : forallb (fun v => match NewBOMLink "urn:uuid:50b69bf2-fd4f-400e-9522-43badebb14ca" v ElemNil with Ret (Err _) => true | _ => false end) [0%Z; (-1)%Z] = true.
Proof. vm_compute. reflexivity. Qed.

(** /repo/link_test.go:52-71 *)
Example go_test_82 : map (NewBOMLink "urn:uuid:50b69bf2-fd4f-400e-9522-43badebb14ca" 6) [ElemComponent "ref"; ElemComponentPtr (Some "ref"); ElemService "ref"; ElemServicePtr (Some "ref"); ElemVulnerability "ref"; ElemVulnerabilityPtr (Some "ref")] = repeat (Ret (Ok (mkBOMLink "urn:uuid:50b69bf2-fd4f-400e-9522-43badebb14ca" 6 "ref"))) 6.
Proof. vm_compute. reflexivity. Qed.

(** /repo/link_test.go:73-83 *)
Example go_test_83 : forallb (fun e => match NewBOMLink "urn:uuid:50b69bf2-fd4f-400e-9522-43badebb14ca" 6 e with Ret (Err _) => true | _ => false end) [ElemComponent ""; ElemOther] = true.
Proof. vm_compute. reflexivity. Qed.

(** /repo/link_test.go:86-106 *)
Example go_test_84 : map (fun r => BOMLink_String (mkBOMLink "urn:uuid:50b69bf2-fd4f-400e-9522-43badebb14ca" 6 r)) ["r/e/f@1.2.3"; ""] = ["urn:cdx:50b69bf2-fd4f-400e-9522-43badebb14ca/6#r%2Fe%2Ff%401.2.3"; "urn:cdx:50b69bf2-fd4f-400e-9522-43badebb14ca/6"].
Proof. vm_compute. reflexivity. Qed.

(** /repo/link_test.go:109-118 *)
Example go_test_85 : forallb IsBOMLink ["urn:cdx:ca0265ad-5bb3-46f2-8523-af52a7efc40b/1"; "urn:cdx:ca0265ad-5bb3-46f2-8523-af52a7efc40b/111"; "urn:cdx:ca0265ad-5bb3-46f2-8523-af52a7efc40b/1#ref"; "urn:cdx:ca0265ad-5bb3-46f2-8523-af52a7efc40b/1#r%2Fe%2Ff"] = true.
Proof. vm_compute. reflexivity. Qed.

(** /repo/link_test.go:120-133 *)
Example go_test_86 : existsb IsBOMLink ["urn"; "urn:cdx"; "urn:cdx:foo-bar"; "urn:cdx:ca0265ad-5bb3-46f2-8523-af52a7efc40b"; "urn:cdx:ca0265ad-5bb3-46f2-8523-af52a7efc40b#ref"; "urn:cdx:ca0265ad-5bb3-46f2-8523-af52a7efc40b/#ref"; "urn:cdx:ca0265ad-5bb3-46f2-8523-af52a7efc40b/1#"; "urn:cdx:ca0265ad-5bb3-46f2-8523-af52a7efc40b/0"] = false.
Proof. vm_compute. reflexivity. Qed.

(** /repo/link_test.go:137-143 *)
Example go_test_87 : ParseBOMLink "urn:cdx:50b69bf2-fd4f-400e-9522-43badebb14ca/6#r%2Fe%2Ff%401.2.3" = Ok (mkBOMLink "urn:uuid:50b69bf2-fd4f-400e-9522-43badebb14ca" 6 "r/e/f@1.2.3").
Proof. vm_compute. reflexivity. Qed.

(** /repo/link_test.go:145-151 *)
Example go_test_88 : ParseBOMLink "urn:cdx:50b69bf2-fd4f-400e-9522-43badebb14ca/6" = Ok (mkBOMLink "urn:uuid:50b69bf2-fd4f-400e-9522-43badebb14ca" 6 "").
Proof. vm_compute. reflexivity. Qed.

(** /repo/link_test.go:153-167 *)
Example go_test_89 : forallb (fun s => fails (ParseBOMLink s)) ["urn:uuid:50b69bf2-fd4f-400e-9522-43badebb14ca"; "urn:cdx:foobar"; "urn:cdx:50b69bf2-fd4f-400e-9522-43badebb14ca"; "urn:cdx:50b69bf2-fd4f-400e-9522-43badebb14ca/0"] = true.
Proof. vm_compute. reflexivity. Qed.

(** /repo/link_example_test.go:26-49 *)
Example go_test_90 : match NewBOMLink "urn:uuid:bd064d10-4238-4a2e-9517-216f79ed77ad" 2 (ElemComponentPtr (Some "pkg:golang/github.com/CycloneDX/cyclonedx-go@v0.5.0?type=module")) with Ret (Ok l) => BOMLink_String l | _ => "" end = "urn:cdx:bd064d10-4238-4a2e-9517-216f79ed77ad/2#pkg%3Agolang%2Fgithub.com%2FCycloneDX%2Fcyclonedx-go%40v0.5.0%3Ftype%3Dmodule".
Proof. vm_compute. reflexivity. Qed.

(** /repo/cyclonedx_test.go:36-41 *)
Example go_test_91 : MediaType_WithVersion MediaTypeJSON SpecVersion1_2 = Ok "application/vnd.cyclonedx+json; version=1.2".
Proof. vm_compute. reflexivity. Qed.

(** /repo/cyclonedx_test.go:43-46 *)
Example go_test_92 : fails (MediaType_WithVersion MediaTypeJSON SpecVersion1_1) = true.
Proof. vm_compute. reflexivity. Qed.

(** /repo/convert_test.go:29-39 *)
Example go_test_93 : Component_Evidence (componentConverter SpecVersion1_2 (set_Component_Evidence (Some zero_Evidence) zero_Component)) = None.
Proof. vm_compute. reflexivity. Qed.

(** /repo/convert_test.go:41-59 *)
Example go_test_94 : option_map (fun e => (Evidence_Identity e, Evidence_Occurrences e, Evidence_Callstack e, Evidence_Copyright e)) (Component_Evidence (componentConverter SpecVersion1_4 (set_Component_Evidence (Some (mkEvidence (Some (mkEvidenceIdentityChoice None (some_list []))) (some_list []) (Some (mkCallstack None)) None (some_list [mkCopyright "foo"]))) zero_Component))) = Some (None, None, None, some_list [mkCopyright "foo"]).
Proof. vm_compute. reflexivity. Qed.

(** /repo/convert_test.go:61-104 *)
Example go_test_95 : option_map (fun e => (Evidence_Identity e, Evidence_Occurrences e)) (Component_Evidence (componentConverter SpecVersion1_5 (set_Component_Evidence (Some (set_Evidence_Identity (Some (mkEvidenceIdentityChoice None (some_list [set_EvidenceIdentity_Field "purl" (set_EvidenceIdentity_ConcludedValue "pkg:generic/acme@1.0.0" zero_EvidenceIdentity); set_EvidenceIdentity_Field "name" zero_EvidenceIdentity]))) (set_Evidence_Occurrences (some_list [mkEvidenceOccurrence "foo" "bar" (Some 42%Z) (Some 42%Z) "asdf" "quux"]) zero_Evidence))) zero_Component))) = Some (Some (mkEvidenceIdentityChoice (Some (set_EvidenceIdentity_Field "purl" zero_EvidenceIdentity)) None), some_list [mkEvidenceOccurrence "foo" "bar" None None "" ""]).
Proof. vm_compute. reflexivity. Qed.
