(** The windows-1251 code page of the Python runtime.  Models only the Python standard library
    (codec 'windows-1251', alias of 'cp1251', errors='strict'), not /repo. *)
From Verif Require Import PyBase Utf.
Open Scope list_scope.
Open Scope N_scope.

(** the upper half, bytes 128..255; 0 marks the one byte without a character (0x98) *)
Definition cp1251_high : list N := [
  1026; 1027; 8218; 1107; 8222; 8230; 8224; 8225; 8364; 8240; 1033; 8249; 1034; 1036; 1035; 1039;
  1106; 8216; 8217; 8220; 8221; 8226; 8211; 8212; 0; 8482; 1113; 8250; 1114; 1116; 1115; 1119;
  160; 1038; 1118; 1032; 164; 1168; 166; 167; 1025; 169; 1028; 171; 172; 173; 174; 1031;
  176; 177; 1030; 1110; 1169; 181; 182; 183; 1105; 8470; 1108; 187; 1112; 1029; 1109; 1111;
  1040; 1041; 1042; 1043; 1044; 1045; 1046; 1047; 1048; 1049; 1050; 1051; 1052; 1053; 1054; 1055;
  1056; 1057; 1058; 1059; 1060; 1061; 1062; 1063; 1064; 1065; 1066; 1067; 1068; 1069; 1070; 1071;
  1072; 1073; 1074; 1075; 1076; 1077; 1078; 1079; 1080; 1081; 1082; 1083; 1084; 1085; 1086; 1087;
  1088; 1089; 1090; 1091; 1092; 1093; 1094; 1095; 1096; 1097; 1098; 1099; 1100; 1101; 1102; 1103].

(** one byte *)
Definition cp1251_char (b : N) : option N :=
  if b <? 128 then Some b
  else match nth_error cp1251_high (N.to_nat (b - 128)) with
       | Some 0 | None => None
       | x => x
       end.
(** bytes.decode('windows-1251') *)
Fixpoint cp1251_decode (bs : list N) : res (list N) :=
  match bs with
  | [] => Ok []
  | b :: t => match cp1251_char b with
              | Some c => r <- cp1251_decode t ;; Ok (c :: r)
              | None => Err UnicodeDecodeError
              end
  end.

Lemma cp1251_high_ge b c : 128 <= b -> cp1251_char b = Some c -> 128 <= c.
Proof.
  unfold cp1251_char. intros Hb. replace (b <? 128) with false by lia.
  destruct (nth_error cp1251_high (N.to_nat (b - 128))) as [x|] eqn:E; [|discriminate].
  assert (Hx : forallb (fun c => (c =? 0) || (128 <=? c)) cp1251_high = true) by (vm_compute; reflexivity).
  rewrite forallb_forall in Hx. specialize (Hx x (nth_error_In _ _ E)). destruct x as [|p]; [discriminate|].
  intros H. injection H as <-. cbn [N.eqb orb] in Hx. apply N.leb_le. exact Hx.
Qed.
Lemma cp1251_low b : b < 128 -> cp1251_char b = Some b.
Proof. intros H. unfold cp1251_char. replace (b <? 128) with true by lia. reflexivity. Qed.
