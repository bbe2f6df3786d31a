(** * Specification vocabulary: the characters of finalseg/prob_emit.py *)
From Verif Require Import PyBase ModelFinalseg.

(** the 113 characters with an entry of prob_emit.py for B, M or E, but none for S:
    佴円咲妩婨媞嬿孓岊嶌廼彐彡怃恝恹憮懨揶斉斎旵晙曈曽桝榊氆溦澪炓爔犇犰玒珖珝瓅
    瓎痄痦瘊皛眆硏禚秄稆稲穂笹箜篑粆絵繻翾舢艈芃苠茳荭菫葒葚蒺蓇蔊蕰薬藠螬覈覌觫
    觱訚訸贠踕踯躞辻遆邤郉醐鈡鏰镚镩関雳霂霙靂韡頋頔顢顬颟颥飥飿餶饦饳馉馎鼢龑 *)
Definition half_known : list char := [
   0x4f74; 0x5186; 0x54b2; 0x59a9; 0x5a68; 0x5a9e; 0x5b3f; 0x5b53; 0x5c8a; 0x5d8c; 0x5efc; 0x5f50;
   0x5f61; 0x6003; 0x605d; 0x6079; 0x61ae; 0x61e8; 0x63f6; 0x6589; 0x658e; 0x65f5; 0x6659; 0x66c8;
   0x66fd; 0x685d; 0x698a; 0x6c06; 0x6ea6; 0x6faa; 0x7093; 0x7214; 0x7287; 0x72b0; 0x7392; 0x73d6;
   0x73dd; 0x74c5; 0x74ce; 0x75c4; 0x75e6; 0x760a; 0x769b; 0x7706; 0x784f; 0x799a; 0x79c4; 0x7a06;
   0x7a32; 0x7a42; 0x7b39; 0x7b9c; 0x7bd1; 0x7c86; 0x7d75; 0x7e7b; 0x7ffe; 0x8222; 0x8248; 0x8283;
   0x82e0; 0x8333; 0x836d; 0x83eb; 0x8452; 0x845a; 0x84ba; 0x84c7; 0x850a; 0x8570; 0x85ac; 0x85e0;
   0x87ac; 0x8988; 0x898c; 0x89eb; 0x89f1; 0x8a1a; 0x8a38; 0x8d20; 0x8e15; 0x8e2f; 0x8e9e; 0x8fbb;
   0x9046; 0x90a4; 0x90c9; 0x9190; 0x9221; 0x93f0; 0x955a; 0x9569; 0x95a2; 0x96f3; 0x9702; 0x9719;
   0x9742; 0x97e1; 0x980b; 0x9814; 0x9862; 0x986c; 0x989f; 0x98a5; 0x98e5; 0x98ff; 0x9936; 0x9966;
   0x9973; 0x9989; 0x998e; 0x9f22; 0x9f91]%N.

(** the 12 characters with an entry for M only: 嬿嶌廼彐秄稲繻茳覌鏰镚霂 *)
Definition middle_only : list char := [
   0x5b3f; 0x5d8c; 0x5efc; 0x5f50; 0x79c4; 0x7a32; 0x7e7b; 0x8333; 0x898c; 0x93f0; 0x955a; 0x9702]%N.
