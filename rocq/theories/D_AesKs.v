(** The netlist /repo/cipher/circuit_files/aes128_ks.txt (identical to the string in
    aes128_ks_data.cpp), one constructor per line in file order: GA = AND, GX = XOR,
    GI = INV.  Generated mechanically from the file. *)
From Coq Require Import List NArith.
From Verif Require Import M_Bristol.
Import ListNotations.
Local Open Scope N_scope.

(** aes128_ks.txt:4-253 *)
Definition aes_ks_file_g0 : list gate := [
GX 1 1 5825; GX 24 5825 6080; GX 25 5825 6079; GX 26 5825 6078; GX 27 5825 6077; GX 28 5825 6076;
GX 29 5825 6075; GX 30 5825 6074; GX 31 5825 6073; GX 16 5825 6072; GX 17 5825 6071; GX 18 5825 6070;
GX 19 5825 6069; GX 20 5825 6068; GX 21 5825 6067; GX 22 5825 6066; GX 23 5825 6065; GX 8 5825 6064;
GX 9 5825 6063; GX 10 5825 6062; GX 11 5825 6061; GX 12 5825 6060; GX 13 5825 6059; GX 14 5825 6058;
GX 15 5825 6057; GX 0 5825 6056; GX 1 5825 6055; GX 2 5825 6054; GX 3 5825 6053; GX 4 5825 6052;
GX 5 5825 6051; GX 6 5825 6050; GX 7 5825 6049; GX 56 5825 6048; GX 57 5825 6047; GX 58 5825 6046;
GX 59 5825 6045; GX 60 5825 6044; GX 61 5825 6043; GX 62 5825 6042; GX 63 5825 6041; GX 48 5825 6040;
GX 49 5825 6039; GX 50 5825 6038; GX 51 5825 6037; GX 52 5825 6036; GX 53 5825 6035; GX 54 5825 6034;
GX 55 5825 6033; GX 40 5825 6032; GX 41 5825 6031; GX 42 5825 6030; GX 43 5825 6029; GX 44 5825 6028;
GX 45 5825 6027; GX 46 5825 6026; GX 47 5825 6025; GX 32 5825 6024; GX 33 5825 6023; GX 34 5825 6022;
GX 35 5825 6021; GX 36 5825 6020; GX 37 5825 6019; GX 38 5825 6018; GX 39 5825 6017; GX 88 5825 6016;
GX 89 5825 6015; GX 90 5825 6014; GX 91 5825 6013; GX 92 5825 6012; GX 93 5825 6011; GX 94 5825 6010;
GX 95 5825 6009; GX 80 5825 6008; GX 81 5825 6007; GX 82 5825 6006; GX 83 5825 6005; GX 84 5825 6004;
GX 85 5825 6003; GX 86 5825 6002; GX 87 5825 6001; GX 72 5825 6000; GX 73 5825 5999; GX 74 5825 5998;
GX 75 5825 5997; GX 76 5825 5996; GX 77 5825 5995; GX 78 5825 5994; GX 79 5825 5993; GX 64 5825 5992;
GX 65 5825 5991; GX 66 5825 5990; GX 67 5825 5989; GX 68 5825 5988; GX 69 5825 5987; GX 70 5825 5986;
GX 71 5825 5985; GX 120 5825 5984; GX 121 5825 5983; GX 122 5825 5982; GX 123 5825 5981; GX 124 5825 5980;
GX 125 5825 5979; GX 126 5825 5978; GX 127 5825 5977; GX 112 5825 5976; GX 113 5825 5975; GX 114 5825 5974;
GX 115 5825 5973; GX 116 5825 5972; GX 117 5825 5971; GX 118 5825 5970; GX 119 5825 5969; GX 104 5825 5968;
GX 105 5825 5967; GX 106 5825 5966; GX 107 5825 5965; GX 108 5825 5964; GX 109 5825 5963; GX 110 5825 5962;
GX 111 5825 5961; GX 96 5825 5960; GX 97 5825 5959; GX 98 5825 5958; GX 99 5825 5957; GX 100 5825 5956;
GX 101 5825 5955; GX 102 5825 5954; GX 103 5825 5953; GX 6065 6071 277; GX 6065 6070 275; GX 6071 6069 179;
GX 6067 6065 178; GX 6070 179 177; GX 6066 177 265; GX 6067 177 262; GX 6068 6066 176; GX 6072 6066 170;
GX 170 177 264; GX 6068 6065 276; GX 6071 6070 158; GX 276 158 272; GX 6070 6068 278; GX 178 278 263;
GX 6067 170 274; GX 6071 274 270; GX 178 170 271; GX 158 271 269; GX 179 276 268; GX 6072 268 267;
GX 6069 6070 195; GX 176 178 210; GX 179 210 266; GX 176 6067 211; GX 6072 211 273; GA 272 268 261;
GX 261 176 171; GA 269 267 260; GA 273 6072 259; GA 277 262 258; GX 258 178 172; GA 270 274 257;
GA 271 264 256; GA 276 265 255; GX 255 177 175; GX 171 175 165; GA 278 263 254; GX 254 260 166;
GX 6065 166 151; GX 151 165 252; GX 254 255 196; GX 196 195 144; GX 144 172 147; GX 257 147 251;
GA 275 266 253; GX 253 256 173; GX 253 259 167; GX 254 173 153; GX 6067 167 152; GX 172 173 187;
GX 175 187 250; GX 166 167 188; GX 178 188 249; GX 257 153 197; GX 6071 197 244; GA 252 251 248;
GX 248 250 247; GX 248 152 198; GX 165 198 243; GA 249 247 246; GX 246 165 150; GX 152 150 245;
GX 258 246 203; GX 171 203 207; GX 6065 207 204; GX 6067 207 208; GA 243 244 242; GX 242 250 241;
GX 248 242 240; GX 242 153 199; GX 242 259 200; GX 200 256 205; GX 205 204 233; GA 250 240 239;
GX 239 247 237; GX 239 257 168; GX 168 147 231; GX 6071 168 160; GX 160 199 238; GA 245 237 236;
GX 236 249 235; GX 236 260 201; GX 160 201 209; GX 178 209 202; GX 205 202 234; GX 236 150 206;
GX 151 206 232; GX 209 208 230; GA 231 268 229; GA 238 267 228; GA 241 6072 227; GA 232 262 226;
GX 226 229 162; GI 162 191; GA 235 274 225; GA 245 264 224; GX 224 227 155; GX 155 191 180;
GA 233 265 223; GX 223 229 157; GX 223 226 186; GA 230 263 222; GX 222 225 163; GX 222 157 184;
GA 234 266 221; GA 231 272 220; GA 238 269 219; GA 241 273 218; GA 232 277 217; GX 217 221 161;
GX 163 161 149; GX 224 149 183; GX 157 161 189; GA 235 270 216; GA 245 271 215; GX 215 227 156;
GX 218 156 193; GA 233 276 214; GA 230 278 213; GX 213 214 174].
(** aes128_ks.txt:254-503 *)
Definition aes_ks_file_g1 : list gate := [
GX 219 174 169; GX 220 169 164; GX 228 164 159; GX 216 174 154; GX 225 159 148; GX 162 148 5696;
GX 155 148 5695; GX 5981 5695 6109; GX 5980 5696 6108; GX 6012 6108 6140; GX 6044 6140 6172; GX 6076 6172 6204;
GX 217 154 181; GX 181 180 182; GI 182 282; GX 154 183 281; GX 159 184 280; GX 163 164 185;
GX 186 185 5699; GX 5977 5699 6105; GX 191 169 192; GX 193 192 194; GI 194 145; GX 145 149 5694;
GX 5982 5694 6110; GX 6014 6110 6142; GX 6046 6142 6174; GX 6009 6105 6137; GX 6041 6137 6169; GX 6073 6169 6201;
GX 6013 6109 6141; GX 6045 6141 6173; GX 6077 6173 6205; GX 6078 6174 6206; GA 234 275 212; GX 212 214 190;
GX 190 189 146; GX 146 156 279; GI 282 5692; GX 5984 5692 128; GI 128 6112; GX 6016 6112 6144;
GX 6048 6144 6176; GX 6080 6176 6208; GI 281 5693; GX 5983 5693 6111; GX 6015 6111 6143; GX 6047 6143 6175;
GX 6079 6175 6207; GI 280 5698; GX 5978 5698 6106; GX 6010 6106 6138; GX 6042 6138 6170; GX 6074 6170 6202;
GI 279 5697; GX 5979 5697 6107; GX 6011 6107 6139; GX 6043 6139 6171; GX 6075 6171 6203; GX 6201 6207 2588;
GX 6201 6206 2586; GX 6207 6205 3456; GX 6203 6201 3457; GX 6206 3456 3458; GX 6202 3458 2576; GX 6203 3458 2573;
GX 6204 6202 3459; GX 6208 6202 3465; GX 3465 3458 2575; GX 6204 6201 2587; GX 6207 6206 3477; GX 2587 3477 2583;
GX 6206 6204 2589; GX 3457 2589 2574; GX 6203 3465 2585; GX 6207 2585 2581; GX 3457 3465 2582; GX 3477 2582 2580;
GX 3456 2587 2579; GX 6208 2579 2578; GX 6205 6206 3440; GX 3459 3457 3425; GX 3456 3425 2577; GX 3459 6203 3424;
GX 6208 3424 2584; GA 2583 2579 2572; GX 2572 3459 3464; GA 2580 2578 2571; GA 2584 6208 2570; GA 2588 2573 2569;
GX 2569 3457 3463; GA 2581 2585 2568; GA 2582 2575 2567; GA 2587 2576 2566; GX 2566 3458 3460; GX 3464 3460 3470;
GA 2589 2574 2565; GX 2565 2571 3469; GX 6201 3469 3484; GX 3484 3470 2563; GX 2565 2566 3439; GX 3439 3440 3491;
GX 3491 3463 3488; GX 2568 3488 2562; GA 2586 2577 2564; GX 2564 2567 3462; GX 2564 2570 3468; GX 2565 3462 3482;
GX 6203 3468 3483; GX 3463 3462 3448; GX 3460 3448 2561; GX 3469 3468 3447; GX 3457 3447 2560; GX 2568 3482 3438;
GX 6207 3438 2555; GA 2563 2562 2559; GX 2559 2561 2558; GX 2559 3483 3437; GX 3470 3437 2554; GA 2560 2558 2557;
GX 2557 3470 3485; GX 3483 3485 2556; GX 2569 2557 3432; GX 3464 3432 3428; GX 6201 3428 3431; GX 6203 3428 3427;
GA 2554 2555 2553; GX 2553 2561 2552; GX 2559 2553 2551; GX 2553 3482 3436; GX 2553 2570 3435; GX 3435 2567 3430;
GX 3430 3431 2544; GA 2561 2551 2550; GX 2550 2558 2548; GX 2550 2568 3467; GX 3467 3488 2542; GX 6207 3467 3475;
GX 3475 3436 2549; GA 2556 2548 2547; GX 2547 2560 2546; GX 2547 2571 3434; GX 3475 3434 3426; GX 3457 3426 3433;
GX 3430 3433 2545; GX 2547 3485 3429; GX 3484 3429 2543; GX 3426 3427 2541; GA 2542 2579 2540; GA 2549 2578 2539;
GA 2552 6208 2538; GA 2543 2573 2537; GX 2537 2540 3473; GI 3473 3444; GA 2546 2585 2536; GA 2556 2575 2535;
GX 2535 2538 3480; GX 3480 3444 3455; GA 2544 2576 2534; GX 2534 2540 3478; GX 2534 2537 3449; GA 2541 2574 2533;
GX 2533 2536 3472; GX 2533 3478 3451; GA 2545 2577 2532; GA 2542 2583 2531; GA 2549 2580 2530; GA 2552 2584 2529;
GA 2543 2588 2528; GX 2528 2532 3474; GX 3472 3474 3486; GX 2535 3486 3452; GX 3478 3474 3446; GA 2546 2581 2527;
GA 2556 2582 2526; GX 2526 2538 3479; GX 2529 3479 3442; GA 2544 2587 2525; GA 2541 2589 2524; GX 2524 2525 3461;
GX 2530 3461 3466; GX 2531 3466 3471; GX 2539 3471 3476; GX 2527 3461 3481; GX 2536 3476 3487; GX 3473 3487 5703;
GX 3480 3487 5702; GX 2528 3481 3454; GX 3454 3455 3453; GX 3481 3452 2592; GX 3476 3451 2591; GX 3472 3471 3450;
GX 3449 3450 5706; GX 3444 3466 3443; GX 3442 3443 3441; GI 3441 3490; GX 3490 3486 5701; GA 2545 2586 2523;
GX 2523 2525 3445; GX 3445 3446 3489; GX 3489 3479 2590; GI 2592 5700; GI 2591 5705; GI 2590 5704;
GX 6073 6079 2868; GX 6073 6078 2866; GX 6079 6077 3184; GX 6075 6073 3185; GX 6078 3184 3186; GX 6074 3186 2856;
GX 6075 3186 2853; GX 6076 6074 3187; GX 6080 6074 3193; GX 3193 3186 2855; GX 6076 6073 2867; GX 6079 6078 3205;
GX 2867 3205 2863; GX 6078 6076 2869; GX 3185 2869 2854; GX 6075 3193 2865; GX 6079 2865 2861; GX 3185 3193 2862;
GX 3205 2862 2860; GX 3184 2867 2859; GX 6080 2859 2858; GX 6077 6078 3168; GX 3187 3185 3153; GX 3184 3153 2857;
GX 3187 6075 3152; GX 6080 3152 2864; GA 2863 2859 2852; GX 2852 3187 3192; GA 2860 2858 2851; GA 2864 6080 2850;
GA 2868 2853 2849; GX 2849 3185 3191; GA 2861 2865 2848; GA 2862 2855 2847; GA 2867 2856 2846; GX 2846 3186 3188;
GX 3192 3188 3198; GA 2869 2854 2845; GX 2845 2851 3197; GX 6073 3197 3212; GX 3212 3198 2843; GX 2845 2846 3167;
GX 3167 3168 3219; GX 3219 3191 3216; GX 2848 3216 2842; GA 2866 2857 2844].
(** aes128_ks.txt:504-753 *)
Definition aes_ks_file_g2 : list gate := [
GX 2844 2847 3190; GX 2844 2850 3196; GX 2845 3190 3210; GX 6075 3196 3211; GX 3191 3190 3176; GX 3188 3176 2841;
GX 3197 3196 3175; GX 3185 3175 2840; GX 2848 3210 3166; GX 6079 3166 2835; GA 2843 2842 2839; GX 2839 2841 2838;
GX 2839 3211 3165; GX 3198 3165 2834; GA 2840 2838 2837; GX 2837 3198 3213; GX 3211 3213 2836; GX 2849 2837 3160;
GX 3192 3160 3156; GX 6073 3156 3159; GX 6075 3156 3155; GA 2834 2835 2833; GX 2833 2841 2832; GX 2839 2833 2831;
GX 2833 3210 3164; GX 2833 2850 3163; GX 3163 2847 3158; GX 3158 3159 2824; GA 2841 2831 2830; GX 2830 2838 2828;
GX 2830 2848 3195; GX 3195 3216 2822; GX 6079 3195 3203; GX 3203 3164 2829; GA 2836 2828 2827; GX 2827 2840 2826;
GX 2827 2851 3162; GX 3203 3162 3154; GX 3185 3154 3161; GX 3158 3161 2825; GX 2827 3213 3157; GX 3212 3157 2823;
GX 3154 3155 2821; GA 2822 2859 2820; GA 2829 2858 2819; GA 2832 6080 2818; GA 2823 2853 2817; GX 2817 2820 3201;
GI 3201 3172; GA 2826 2865 2816; GA 2836 2855 2815; GX 2815 2818 3208; GX 3208 3172 3183; GA 2824 2856 2814;
GX 2814 2820 3206; GX 2814 2817 3177; GA 2821 2854 2813; GX 2813 2816 3200; GX 2813 3206 3179; GA 2825 2857 2812;
GA 2822 2863 2811; GA 2829 2860 2810; GA 2832 2864 2809; GA 2823 2868 2808; GX 2808 2812 3202; GX 3200 3202 3214;
GX 2815 3214 3180; GX 3206 3202 3174; GA 2826 2861 2807; GA 2836 2862 2806; GX 2806 2818 3207; GX 2809 3207 3170;
GA 2824 2867 2805; GA 2821 2869 2804; GX 2804 2805 3189; GX 2810 3189 3194; GX 2811 3194 3199; GX 2819 3199 3204;
GX 2807 3189 3209; GX 2816 3204 3215; GX 3201 3215 5672; GX 5956 5672 6084; GX 6084 5703 6212; GX 5988 6084 6116;
GX 6020 6116 6148; GX 6052 6148 6180; GX 6116 6212 6244; GX 6148 6244 6276; GX 6180 6276 6308; GX 3208 3215 5671;
GX 5957 5671 6085; GX 6085 5702 6213; GX 5989 6085 6117; GX 6021 6117 6149; GX 6053 6149 6181; GX 6117 6213 6245;
GX 6149 6245 6277; GX 6181 6277 6309; GX 2808 3209 3182; GX 3182 3183 3181; GI 3181 2873; GX 3209 3180 2872;
GX 3204 3179 2871; GX 3200 3199 3178; GX 3177 3178 5675; GX 5953 5675 6081; GX 5985 6081 6113; GX 6017 6113 6145;
GX 6049 6145 6177; GX 6081 5706 6209; GX 6113 6209 6241; GX 6145 6241 6273; GX 6177 6273 6305; GX 6308 6305 2377;
GX 6180 6177 2657; GX 3172 3194 3171; GX 3170 3171 3169; GI 3169 3218; GX 3218 3214 5670; GX 5958 5670 6086;
GX 5990 6086 6118; GX 6022 6118 6150; GX 6054 6150 6182; GX 6086 5701 6214; GX 6118 6214 6246; GX 6150 6246 6278;
GX 6182 6278 6310; GX 6305 6310 2376; GX 6310 6308 2379; GX 6309 6310 3644; GX 6177 6182 2656; GX 6182 6180 2659;
GX 6181 6182 3372; GA 2825 2866 2803; GX 2803 2805 3173; GX 3173 3174 3217; GX 3217 3207 2870; GI 2873 5668;
GX 5960 5668 6088; GX 6088 3453 6216; GX 5992 6088 6120; GX 6024 6120 6152; GX 6056 6152 6184; GX 6120 6216 6248;
GX 6152 6248 6280; GX 6184 6280 6312; GI 2872 5669; GX 5959 5669 6087; GX 6087 5700 6215; GX 5991 6087 6119;
GX 6023 6119 6151; GX 6055 6151 6183; GX 6119 6215 6247; GX 6151 6247 6279; GX 6183 6279 6311; GX 6305 6311 2378;
GX 6311 6309 3660; GX 6310 3660 3662; GX 6311 6310 3681; GX 2377 3681 2373; GX 3660 2377 2369; GX 6312 2369 2368;
GA 2373 2369 2362; GX 6177 6183 2658; GX 6183 6181 3388; GX 6182 3388 3390; GX 6183 6182 3409; GX 2657 3409 2653;
GX 3388 2657 2649; GX 6184 2649 2648; GA 2653 2649 2642; GI 2871 5674; GX 5954 5674 6082; GX 5986 6082 6114;
GX 6018 6114 6146; GX 6050 6146 6178; GX 6082 5705 6210; GX 6114 6210 6242; GX 6146 6242 6274; GX 6178 6274 6306;
GX 6306 3662 2366; GX 6308 6306 3663; GX 2362 3663 3668; GX 6312 6306 3669; GX 3669 3662 2365; GA 2377 2366 2356;
GX 2356 3662 3664; GX 3668 3664 3674; GX 6178 3390 2646; GX 6180 6178 3391; GX 2642 3391 3396; GX 6184 6178 3397;
GX 3397 3390 2645; GA 2657 2646 2636; GX 2636 3390 3392; GX 3396 3392 3402; GI 2870 5673; GX 5955 5673 6083;
GX 6083 5704 6211; GX 5987 6083 6115; GX 6019 6115 6147; GX 6051 6147 6179; GX 6115 6211 6243; GX 6147 6243 6275;
GX 6179 6275 6307; GX 6307 3662 2363; GX 6307 6305 3661; GX 3661 2379 2364; GX 6307 3669 2375; GX 6311 2375 2371;
GX 3661 3669 2372; GX 3681 2372 2370; GX 3663 3661 3629; GX 3660 3629 2367; GX 3663 6307 3628; GX 6312 3628 2374;
GA 2370 2368 2361; GA 2374 6312 2360; GA 2378 2363 2359; GX 2359 3661 3667; GA 2371 2375 2358; GA 2372 2365 2357;
GA 2379 2364 2355; GX 2355 2361 3673; GX 6305 3673 3688; GX 3688 3674 2353; GX 2355 2356 3643; GX 3643 3644 3695;
GX 3695 3667 3692; GX 2358 3692 2352; GA 2376 2367 2354; GX 2354 2357 3666; GX 2354 2360 3672; GX 2355 3666 3686;
GX 6307 3672 3687; GX 3667 3666 3652; GX 3664 3652 2351; GX 3673 3672 3651; GX 3661 3651 2350; GX 2358 3686 3642;
GX 6311 3642 2345; GA 2353 2352 2349; GX 2349 2351 2348; GX 2349 3687 3641; GX 3674 3641 2344; GA 2350 2348 2347;
GX 2347 3674 3689; GX 3687 3689 2346; GX 2359 2347 3636; GX 3668 3636 3632].
(** aes128_ks.txt:754-1003 *)
Definition aes_ks_file_g3 : list gate := [
GX 6305 3632 3635; GX 6307 3632 3631; GA 2344 2345 2343; GX 2343 2351 2342; GX 2349 2343 2341; GX 2343 3686 3640;
GX 2343 2360 3639; GX 3639 2357 3634; GX 3634 3635 2334; GA 2351 2341 2340; GX 2340 2348 2338; GX 2340 2358 3671;
GX 3671 3692 2332; GX 6311 3671 3679; GX 3679 3640 2339; GA 2346 2338 2337; GX 2337 2350 2336; GX 2337 2361 3638;
GX 3679 3638 3630; GX 3661 3630 3637; GX 3634 3637 2335; GX 2337 3689 3633; GX 3688 3633 2333; GX 3630 3631 2331;
GA 2332 2369 2330; GA 2339 2368 2329; GA 2342 6312 2328; GA 2333 2363 2327; GX 2327 2330 3677; GI 3677 3648;
GA 2336 2375 2326; GA 2346 2365 2325; GX 2325 2328 3684; GX 3684 3648 3659; GA 2334 2366 2324; GX 2324 2330 3682;
GX 2324 2327 3653; GA 2331 2364 2323; GX 2323 2326 3676; GX 2323 3682 3655; GA 2335 2367 2322; GA 2332 2373 2321;
GA 2339 2370 2320; GA 2342 2374 2319; GA 2333 2378 2318; GX 2318 2322 3678; GX 3676 3678 3690; GX 2325 3690 3656;
GX 3682 3678 3650; GA 2336 2371 2317; GA 2346 2372 2316; GX 2316 2328 3683; GX 2319 3683 3646; GA 2334 2377 2315;
GA 2331 2379 2314; GX 2314 2315 3665; GX 2320 3665 3670; GX 2321 3670 3675; GX 2329 3675 3680; GX 2317 3665 3685;
GX 2326 3680 3691; GX 3677 3691 5738; GX 3684 3691 5737; GX 2318 3685 3658; GX 3658 3659 3657; GX 3685 3656 2382;
GX 3680 3655 2381; GX 3676 3675 3654; GX 3653 3654 5741; GX 3648 3670 3647; GX 3646 3647 3645; GI 3645 3694;
GX 3694 3690 5736; GA 2335 2376 2313; GX 2313 2315 3649; GX 3649 3650 3693; GX 3693 3683 2380; GI 2382 5735;
GI 2381 5740; GI 2380 5739; GX 6179 3390 2643; GX 6179 6177 3389; GX 3389 2659 2644; GX 6179 3397 2655;
GX 6183 2655 2651; GX 3389 3397 2652; GX 3409 2652 2650; GX 3391 3389 3357; GX 3388 3357 2647; GX 3391 6179 3356;
GX 6184 3356 2654; GA 2650 2648 2641; GA 2654 6184 2640; GA 2658 2643 2639; GX 2639 3389 3395; GA 2651 2655 2638;
GA 2652 2645 2637; GA 2659 2644 2635; GX 2635 2641 3401; GX 6177 3401 3416; GX 3416 3402 2633; GX 2635 2636 3371;
GX 3371 3372 3423; GX 3423 3395 3420; GX 2638 3420 2632; GA 2656 2647 2634; GX 2634 2637 3394; GX 2634 2640 3400;
GX 2635 3394 3414; GX 6179 3400 3415; GX 3395 3394 3380; GX 3392 3380 2631; GX 3401 3400 3379; GX 3389 3379 2630;
GX 2638 3414 3370; GX 6183 3370 2625; GA 2633 2632 2629; GX 2629 2631 2628; GX 2629 3415 3369; GX 3402 3369 2624;
GA 2630 2628 2627; GX 2627 3402 3417; GX 3415 3417 2626; GX 2639 2627 3364; GX 3396 3364 3360; GX 6177 3360 3363;
GX 6179 3360 3359; GA 2624 2625 2623; GX 2623 2631 2622; GX 2629 2623 2621; GX 2623 3414 3368; GX 2623 2640 3367;
GX 3367 2637 3362; GX 3362 3363 2614; GA 2631 2621 2620; GX 2620 2628 2618; GX 2620 2638 3399; GX 3399 3420 2612;
GX 6183 3399 3407; GX 3407 3368 2619; GA 2626 2618 2617; GX 2617 2630 2616; GX 2617 2641 3366; GX 3407 3366 3358;
GX 3389 3358 3365; GX 3362 3365 2615; GX 2617 3417 3361; GX 3416 3361 2613; GX 3358 3359 2611; GA 2612 2649 2610;
GA 2619 2648 2609; GA 2622 6184 2608; GA 2613 2643 2607; GX 2607 2610 3405; GI 3405 3376; GA 2616 2655 2606;
GA 2626 2645 2605; GX 2605 2608 3412; GX 3412 3376 3387; GA 2614 2646 2604; GX 2604 2610 3410; GX 2604 2607 3381;
GA 2611 2644 2603; GX 2603 2606 3404; GX 2603 3410 3383; GA 2615 2647 2602; GA 2612 2653 2601; GA 2619 2650 2600;
GA 2622 2654 2599; GA 2613 2658 2598; GX 2598 2602 3406; GX 3404 3406 3418; GX 2605 3418 3384; GX 3410 3406 3378;
GA 2616 2651 2597; GA 2626 2652 2596; GX 2596 2608 3411; GX 2599 3411 3374; GA 2614 2657 2595; GA 2611 2659 2594;
GX 2594 2595 3393; GX 2600 3393 3398; GX 2601 3398 3403; GX 2609 3403 3408; GX 2597 3393 3413; GX 2606 3408 3419;
GX 3405 3419 5710; GX 3412 3419 5709; GX 2598 3413 3386; GX 3386 3387 3385; GX 3413 3384 2662; GX 3408 3383 2661;
GX 3404 3403 3382; GX 3381 3382 5713; GX 3376 3398 3375; GX 3374 3375 3373; GI 3373 3422; GX 3422 3418 5708;
GA 2615 2656 2593; GX 2593 2595 3377; GX 3377 3378 3421; GX 3421 3411 2660; GI 2662 5707; GI 2661 5712;
GI 2660 5711; GX 6049 6055 2939; GX 6049 6054 2937; GX 6055 6053 3116; GX 6051 6049 3117; GX 6054 3116 3118;
GX 6050 3118 2927; GX 6051 3118 2924; GX 6052 6050 3119; GX 6056 6050 3125; GX 3125 3118 2926; GX 6052 6049 2938;
GX 6055 6054 3137; GX 2938 3137 2934; GX 6054 6052 2940; GX 3117 2940 2925; GX 6051 3125 2936; GX 6055 2936 2932;
GX 3117 3125 2933; GX 3137 2933 2931; GX 3116 2938 2930; GX 6056 2930 2929; GX 6053 6054 3100; GX 3119 3117 3085;
GX 3116 3085 2928; GX 3119 6051 3084; GX 6056 3084 2935; GA 2934 2930 2923; GX 2923 3119 3124; GA 2931 2929 2922;
GA 2935 6056 2921; GA 2939 2924 2920; GX 2920 3117 3123; GA 2932 2936 2919; GA 2933 2926 2918; GA 2938 2927 2917;
GX 2917 3118 3120; GX 3124 3120 3130; GA 2940 2925 2916; GX 2916 2922 3129; GX 6049 3129 3144; GX 3144 3130 2914;
GX 2916 2917 3099; GX 3099 3100 3151; GX 3151 3123 3148; GX 2919 3148 2913].
(** aes128_ks.txt:1004-1253 *)
Definition aes_ks_file_g4 : list gate := [
GA 2937 2928 2915; GX 2915 2918 3122; GX 2915 2921 3128; GX 2916 3122 3142; GX 6051 3128 3143; GX 3123 3122 3108;
GX 3120 3108 2912; GX 3129 3128 3107; GX 3117 3107 2911; GX 2919 3142 3098; GX 6055 3098 2906; GA 2914 2913 2910;
GX 2910 2912 2909; GX 2910 3143 3097; GX 3130 3097 2905; GA 2911 2909 2908; GX 2908 3130 3145; GX 3143 3145 2907;
GX 2920 2908 3092; GX 3124 3092 3088; GX 6049 3088 3091; GX 6051 3088 3087; GA 2905 2906 2904; GX 2904 2912 2903;
GX 2910 2904 2902; GX 2904 3142 3096; GX 2904 2921 3095; GX 3095 2918 3090; GX 3090 3091 2895; GA 2912 2902 2901;
GX 2901 2909 2899; GX 2901 2919 3127; GX 3127 3148 2893; GX 6055 3127 3135; GX 3135 3096 2900; GA 2907 2899 2898;
GX 2898 2911 2897; GX 2898 2922 3094; GX 3135 3094 3086; GX 3117 3086 3093; GX 3090 3093 2896; GX 2898 3145 3089;
GX 3144 3089 2894; GX 3086 3087 2892; GA 2893 2930 2891; GA 2900 2929 2890; GA 2903 6056 2889; GA 2894 2924 2888;
GX 2888 2891 3133; GI 3133 3104; GA 2897 2936 2887; GA 2907 2926 2886; GX 2886 2889 3140; GX 3140 3104 3115;
GA 2895 2927 2885; GX 2885 2891 3138; GX 2885 2888 3109; GA 2892 2925 2884; GX 2884 2887 3132; GX 2884 3138 3111;
GA 2896 2928 2883; GA 2893 2934 2882; GA 2900 2931 2881; GA 2903 2935 2880; GA 2894 2939 2879; GX 2879 2883 3134;
GX 3132 3134 3146; GX 2886 3146 3112; GX 3138 3134 3106; GA 2897 2932 2878; GA 2907 2933 2877; GX 2877 2889 3139;
GX 2880 3139 3102; GA 2895 2938 2876; GA 2892 2940 2875; GX 2875 2876 3121; GX 2881 3121 3126; GX 2882 3126 3131;
GX 2890 3131 3136; GX 2878 3121 3141; GX 2887 3136 3147; GX 3133 3147 5680; GX 5964 5680 6092; GX 5996 6092 6124;
GX 6028 6124 6156; GX 6060 6156 6188; GX 6092 5710 6220; GX 6124 6220 6252; GX 6220 5738 6348; GX 6252 6348 6380;
GX 6156 6252 6284; GX 6188 6284 6316; GX 6284 6380 6412; GX 6316 6412 6444; GX 3140 3147 5679; GX 5965 5679 6093;
GX 6093 5709 6221; GX 5997 6093 6125; GX 6029 6125 6157; GX 6061 6157 6189; GX 6125 6221 6253; GX 6157 6253 6285;
GX 6189 6285 6317; GX 6221 5737 6349; GX 6253 6349 6381; GX 6285 6381 6413; GX 6317 6413 6445; GX 2879 3141 3114;
GX 3114 3115 3113; GI 3113 2944; GX 3141 3112 2943; GX 3136 3111 2942; GX 3132 3131 3110; GX 3109 3110 5683;
GX 5961 5683 6089; GX 6089 5713 6217; GX 5993 6089 6121; GX 6025 6121 6153; GX 6057 6153 6185; GX 6121 6217 6249;
GX 6153 6249 6281; GX 6185 6281 6313; GX 6316 6313 2447; GX 6217 5741 6345; GX 6249 6345 6377; GX 6188 6185 2727;
GX 6281 6377 6409; GX 6313 6409 6441; GX 6444 6441 2167; GX 3104 3126 3103; GX 3102 3103 3101; GI 3101 3150;
GX 3150 3146 5678; GX 5966 5678 6094; GX 5998 6094 6126; GX 6030 6126 6158; GX 6094 5708 6222; GX 6062 6158 6190;
GX 6126 6222 6254; GX 6158 6254 6286; GX 6222 5736 6350; GX 6254 6350 6382; GX 6190 6286 6318; GX 6313 6318 2446;
GX 6318 6316 2449; GX 6317 6318 3576; GX 6185 6190 2726; GX 6190 6188 2729; GX 6189 6190 3304; GX 6286 6382 6414;
GX 6318 6414 6446; GX 6441 6446 2166; GX 6446 6444 2169; GX 6445 6446 3848; GA 2896 2937 2874; GX 2874 2876 3105;
GX 3105 3106 3149; GX 3149 3139 2941; GI 2944 5676; GX 5968 5676 6096; GX 6096 3385 6224; GX 6000 6096 6128;
GX 6032 6128 6160; GX 6064 6160 6192; GX 6128 6224 6256; GX 6160 6256 6288; GX 6192 6288 6320; GX 6224 3657 6352;
GX 6256 6352 6384; GX 6288 6384 6416; GX 6320 6416 6448; GI 2943 5677; GX 5967 5677 6095; GX 6095 5707 6223;
GX 5999 6095 6127; GX 6031 6127 6159; GX 6063 6159 6191; GX 6127 6223 6255; GX 6159 6255 6287; GX 6191 6287 6319;
GX 6313 6319 2448; GX 6319 6317 3592; GX 6318 3592 3594; GX 6319 6318 3613; GX 2447 3613 2443; GX 3592 2447 2439;
GX 6320 2439 2438; GA 2443 2439 2432; GX 6223 5735 6351; GX 6255 6351 6383; GX 6185 6191 2728; GX 6191 6189 3320;
GX 6190 3320 3322; GX 6191 6190 3341; GX 2727 3341 2723; GX 3320 2727 2719; GX 6192 2719 2718; GA 2723 2719 2712;
GX 6287 6383 6415; GX 6319 6415 6447; GX 6441 6447 2168; GX 6447 6445 3864; GX 6446 3864 3866; GX 6447 6446 3885;
GX 2167 3885 2163; GX 3864 2167 2159; GX 6448 2159 2158; GA 2163 2159 2152; GI 2942 5682; GX 5962 5682 6090;
GX 5994 6090 6122; GX 6090 5712 6218; GX 6026 6122 6154; GX 6122 6218 6250; GX 6058 6154 6186; GX 6154 6250 6282;
GX 6186 6282 6314; GX 6314 3594 2436; GX 6316 6314 3595; GX 2432 3595 3600; GX 6320 6314 3601; GX 3601 3594 2435;
GA 2447 2436 2426; GX 2426 3594 3596; GX 3600 3596 3606; GX 6218 5740 6346; GX 6250 6346 6378; GX 6186 3322 2716;
GX 6188 6186 3323; GX 2712 3323 3328; GX 6192 6186 3329; GX 3329 3322 2715; GA 2727 2716 2706; GX 2706 3322 3324;
GX 3328 3324 3334; GX 6282 6378 6410; GX 6314 6410 6442; GX 6442 3866 2156; GX 6444 6442 3867; GX 2152 3867 3872;
GX 6448 6442 3873; GX 3873 3866 2155; GA 2167 2156 2146; GX 2146 3866 3868; GX 3872 3868 3878; GI 2941 5681;
GX 5963 5681 6091; GX 5995 6091 6123; GX 6027 6123 6155; GX 6091 5711 6219].
(** aes128_ks.txt:1254-1503 *)
Definition aes_ks_file_g5 : list gate := [
GX 6059 6155 6187; GX 6123 6219 6251; GX 6219 5739 6347; GX 6251 6347 6379; GX 6155 6251 6283; GX 6187 6283 6315;
GX 6315 3594 2433; GX 6315 6313 3593; GX 3593 2449 2434; GX 6315 3601 2445; GX 6319 2445 2441; GX 3593 3601 2442;
GX 3613 2442 2440; GX 3595 3593 3561; GX 3592 3561 2437; GX 3595 6315 3560; GX 6320 3560 2444; GA 2440 2438 2431;
GA 2444 6320 2430; GA 2448 2433 2429; GX 2429 3593 3599; GA 2441 2445 2428; GA 2442 2435 2427; GA 2449 2434 2425;
GX 2425 2431 3605; GX 6313 3605 3620; GX 3620 3606 2423; GX 2425 2426 3575; GX 3575 3576 3627; GX 3627 3599 3624;
GX 2428 3624 2422; GA 2446 2437 2424; GX 2424 2427 3598; GX 2424 2430 3604; GX 2425 3598 3618; GX 6315 3604 3619;
GX 3599 3598 3584; GX 3596 3584 2421; GX 3605 3604 3583; GX 3593 3583 2420; GX 2428 3618 3574; GX 6319 3574 2415;
GA 2423 2422 2419; GX 2419 2421 2418; GX 2419 3619 3573; GX 3606 3573 2414; GA 2420 2418 2417; GX 2417 3606 3621;
GX 3619 3621 2416; GX 2429 2417 3568; GX 3600 3568 3564; GX 6313 3564 3567; GX 6315 3564 3563; GA 2414 2415 2413;
GX 2413 2421 2412; GX 2419 2413 2411; GX 2413 3618 3572; GX 2413 2430 3571; GX 3571 2427 3566; GX 3566 3567 2404;
GA 2421 2411 2410; GX 2410 2418 2408; GX 2410 2428 3603; GX 3603 3624 2402; GX 6319 3603 3611; GX 3611 3572 2409;
GA 2416 2408 2407; GX 2407 2420 2406; GX 2407 2431 3570; GX 3611 3570 3562; GX 3593 3562 3569; GX 3566 3569 2405;
GX 2407 3621 3565; GX 3620 3565 2403; GX 3562 3563 2401; GA 2402 2439 2400; GA 2409 2438 2399; GA 2412 6320 2398;
GA 2403 2433 2397; GX 2397 2400 3609; GI 3609 3580; GA 2406 2445 2396; GA 2416 2435 2395; GX 2395 2398 3616;
GX 3616 3580 3591; GA 2404 2436 2394; GX 2394 2400 3614; GX 2394 2397 3585; GA 2401 2434 2393; GX 2393 2396 3608;
GX 2393 3614 3587; GA 2405 2437 2392; GA 2402 2443 2391; GA 2409 2440 2390; GA 2412 2444 2389; GA 2403 2448 2388;
GX 2388 2392 3610; GX 3608 3610 3622; GX 2395 3622 3588; GX 3614 3610 3582; GA 2406 2441 2387; GA 2416 2442 2386;
GX 2386 2398 3615; GX 2389 3615 3578; GA 2404 2447 2385; GA 2401 2449 2384; GX 2384 2385 3597; GX 2390 3597 3602;
GX 2391 3602 3607; GX 2399 3607 3612; GX 2387 3597 3617; GX 2396 3612 3623; GX 3609 3623 5745; GX 3616 3623 5744;
GX 2388 3617 3590; GX 3590 3591 3589; GX 3617 3588 2452; GX 3612 3587 2451; GX 3608 3607 3586; GX 3585 3586 5748;
GX 3580 3602 3579; GX 3578 3579 3577; GI 3577 3626; GX 3626 3622 5743; GA 2405 2446 2383; GX 2383 2385 3581;
GX 3581 3582 3625; GX 3625 3615 2450; GI 2452 5742; GI 2451 5747; GI 2450 5746; GX 6187 3322 2713;
GX 6187 6185 3321; GX 3321 2729 2714; GX 6187 3329 2725; GX 6191 2725 2721; GX 3321 3329 2722; GX 3341 2722 2720;
GX 3323 3321 3289; GX 3320 3289 2717; GX 3323 6187 3288; GX 6192 3288 2724; GA 2720 2718 2711; GA 2724 6192 2710;
GA 2728 2713 2709; GX 2709 3321 3327; GA 2721 2725 2708; GA 2722 2715 2707; GA 2729 2714 2705; GX 2705 2711 3333;
GX 6185 3333 3348; GX 3348 3334 2703; GX 2705 2706 3303; GX 3303 3304 3355; GX 3355 3327 3352; GX 2708 3352 2702;
GA 2726 2717 2704; GX 2704 2707 3326; GX 2704 2710 3332; GX 2705 3326 3346; GX 6187 3332 3347; GX 3327 3326 3312;
GX 3324 3312 2701; GX 3333 3332 3311; GX 3321 3311 2700; GX 2708 3346 3302; GX 6191 3302 2695; GA 2703 2702 2699;
GX 2699 2701 2698; GX 2699 3347 3301; GX 3334 3301 2694; GA 2700 2698 2697; GX 2697 3334 3349; GX 3347 3349 2696;
GX 2709 2697 3296; GX 3328 3296 3292; GX 6185 3292 3295; GX 6187 3292 3291; GA 2694 2695 2693; GX 2693 2701 2692;
GX 2699 2693 2691; GX 2693 3346 3300; GX 2693 2710 3299; GX 3299 2707 3294; GX 3294 3295 2684; GA 2701 2691 2690;
GX 2690 2698 2688; GX 2690 2708 3331; GX 3331 3352 2682; GX 6191 3331 3339; GX 3339 3300 2689; GA 2696 2688 2687;
GX 2687 2700 2686; GX 2687 2711 3298; GX 3339 3298 3290; GX 3321 3290 3297; GX 3294 3297 2685; GX 2687 3349 3293;
GX 3348 3293 2683; GX 3290 3291 2681; GA 2682 2719 2680; GA 2689 2718 2679; GA 2692 6192 2678; GA 2683 2713 2677;
GX 2677 2680 3337; GI 3337 3308; GA 2686 2725 2676; GA 2696 2715 2675; GX 2675 2678 3344; GX 3344 3308 3319;
GA 2684 2716 2674; GX 2674 2680 3342; GX 2674 2677 3313; GA 2681 2714 2673; GX 2673 2676 3336; GX 2673 3342 3315;
GA 2685 2717 2672; GA 2682 2723 2671; GA 2689 2720 2670; GA 2692 2724 2669; GA 2683 2728 2668; GX 2668 2672 3338;
GX 3336 3338 3350; GX 2675 3350 3316; GX 3342 3338 3310; GA 2686 2721 2667; GA 2696 2722 2666; GX 2666 2678 3343;
GX 2669 3343 3306; GA 2684 2727 2665; GA 2681 2729 2664; GX 2664 2665 3325; GX 2670 3325 3330; GX 2671 3330 3335;
GX 2679 3335 3340; GX 2667 3325 3345; GX 2676 3340 3351; GX 3337 3351 5717; GX 3344 3351 5716; GX 2668 3345 3318;
GX 3318 3319 3317; GX 3345 3316 2732; GX 3340 3315 2731; GX 3336 3335 3314; GX 3313 3314 5720; GX 3308 3330 3307;
GX 3306 3307 3305; GI 3305 3354; GX 3354 3350 5715; GA 2685 2726 2663].
(** aes128_ks.txt:1504-1753 *)
Definition aes_ks_file_g6 : list gate := [
GX 2663 2665 3309; GX 3309 3310 3353; GX 3353 3343 2730; GI 2732 5714; GI 2731 5719; GI 2730 5718;
GX 6283 6379 6411; GX 6315 6411 6443; GX 6443 3866 2153; GX 6443 6441 3865; GX 3865 2169 2154; GX 6443 3873 2165;
GX 6447 2165 2161; GX 3865 3873 2162; GX 3885 2162 2160; GX 3867 3865 3833; GX 3864 3833 2157; GX 3867 6443 3832;
GX 6448 3832 2164; GA 2160 2158 2151; GA 2164 6448 2150; GA 2168 2153 2149; GX 2149 3865 3871; GA 2161 2165 2148;
GA 2162 2155 2147; GA 2169 2154 2145; GX 2145 2151 3877; GX 6441 3877 3892; GX 3892 3878 2143; GX 2145 2146 3847;
GX 3847 3848 3899; GX 3899 3871 3896; GX 2148 3896 2142; GA 2166 2157 2144; GX 2144 2147 3870; GX 2144 2150 3876;
GX 2145 3870 3890; GX 6443 3876 3891; GX 3871 3870 3856; GX 3868 3856 2141; GX 3877 3876 3855; GX 3865 3855 2140;
GX 2148 3890 3846; GX 6447 3846 2135; GA 2143 2142 2139; GX 2139 2141 2138; GX 2139 3891 3845; GX 3878 3845 2134;
GA 2140 2138 2137; GX 2137 3878 3893; GX 3891 3893 2136; GX 2149 2137 3840; GX 3872 3840 3836; GX 6441 3836 3839;
GX 6443 3836 3835; GA 2134 2135 2133; GX 2133 2141 2132; GX 2139 2133 2131; GX 2133 3890 3844; GX 2133 2150 3843;
GX 3843 2147 3838; GX 3838 3839 2124; GA 2141 2131 2130; GX 2130 2138 2128; GX 2130 2148 3875; GX 3875 3896 2122;
GX 6447 3875 3883; GX 3883 3844 2129; GA 2136 2128 2127; GX 2127 2140 2126; GX 2127 2151 3842; GX 3883 3842 3834;
GX 3865 3834 3841; GX 3838 3841 2125; GX 2127 3893 3837; GX 3892 3837 2123; GX 3834 3835 2121; GA 2122 2159 2120;
GA 2129 2158 2119; GA 2132 6448 2118; GA 2123 2153 2117; GX 2117 2120 3881; GI 3881 3852; GA 2126 2165 2116;
GA 2136 2155 2115; GX 2115 2118 3888; GX 3888 3852 3863; GA 2124 2156 2114; GX 2114 2120 3886; GX 2114 2117 3857;
GA 2121 2154 2113; GX 2113 2116 3880; GX 2113 3886 3859; GA 2125 2157 2112; GA 2122 2163 2111; GA 2129 2160 2110;
GA 2132 2164 2109; GA 2123 2168 2108; GX 2108 2112 3882; GX 3880 3882 3894; GX 2115 3894 3860; GX 3886 3882 3854;
GA 2126 2161 2107; GA 2136 2162 2106; GX 2106 2118 3887; GX 2109 3887 3850; GA 2124 2167 2105; GA 2121 2169 2104;
GX 2104 2105 3869; GX 2110 3869 3874; GX 2111 3874 3879; GX 2119 3879 3884; GX 2107 3869 3889; GX 2116 3884 3895;
GX 3881 3895 5773; GX 3888 3895 5772; GX 2108 3889 3862; GX 3862 3863 3861; GX 3889 3860 2172; GX 3884 3859 2171;
GX 3880 3879 3858; GX 3857 3858 5776; GX 3852 3874 3851; GX 3850 3851 3849; GI 3849 3898; GX 3898 3894 5771;
GA 2125 2166 2103; GX 2103 2105 3853; GX 3853 3854 3897; GX 3897 3887 2170; GI 2172 5770; GI 2171 5775;
GI 2170 5774; GX 6057 6063 3010; GX 6057 6062 3008; GX 6063 6061 3048; GX 6059 6057 3049; GX 6062 3048 3050;
GX 6058 3050 2998; GX 6059 3050 2995; GX 6060 6058 3051; GX 6064 6058 3057; GX 3057 3050 2997; GX 6060 6057 3009;
GX 6063 6062 3069; GX 3009 3069 3005; GX 6062 6060 3011; GX 3049 3011 2996; GX 6059 3057 3007; GX 6063 3007 3003;
GX 3049 3057 3004; GX 3069 3004 3002; GX 3048 3009 3001; GX 6064 3001 3000; GX 6061 6062 3032; GX 3051 3049 3017;
GX 3048 3017 2999; GX 3051 6059 3016; GX 6064 3016 3006; GA 3005 3001 2994; GX 2994 3051 3056; GA 3002 3000 2993;
GA 3006 6064 2992; GA 3010 2995 2991; GX 2991 3049 3055; GA 3003 3007 2990; GA 3004 2997 2989; GA 3009 2998 2988;
GX 2988 3050 3052; GX 3056 3052 3062; GA 3011 2996 2987; GX 2987 2993 3061; GX 6057 3061 3076; GX 3076 3062 2985;
GX 2987 2988 3031; GX 3031 3032 3083; GX 3083 3055 3080; GX 2990 3080 2984; GA 3008 2999 2986; GX 2986 2989 3054;
GX 2986 2992 3060; GX 2987 3054 3074; GX 6059 3060 3075; GX 3055 3054 3040; GX 3052 3040 2983; GX 3061 3060 3039;
GX 3049 3039 2982; GX 2990 3074 3030; GX 6063 3030 2977; GA 2985 2984 2981; GX 2981 2983 2980; GX 2981 3075 3029;
GX 3062 3029 2976; GA 2982 2980 2979; GX 2979 3062 3077; GX 3075 3077 2978; GX 2991 2979 3024; GX 3056 3024 3020;
GX 6057 3020 3023; GX 6059 3020 3019; GA 2976 2977 2975; GX 2975 2983 2974; GX 2981 2975 2973; GX 2975 3074 3028;
GX 2975 2992 3027; GX 3027 2989 3022; GX 3022 3023 2966; GA 2983 2973 2972; GX 2972 2980 2970; GX 2972 2990 3059;
GX 3059 3080 2964; GX 6063 3059 3067; GX 3067 3028 2971; GA 2978 2970 2969; GX 2969 2982 2968; GX 2969 2993 3026;
GX 3067 3026 3018; GX 3049 3018 3025; GX 3022 3025 2967; GX 2969 3077 3021; GX 3076 3021 2965; GX 3018 3019 2963;
GA 2964 3001 2962; GA 2971 3000 2961; GA 2974 6064 2960; GA 2965 2995 2959; GX 2959 2962 3065; GI 3065 3036;
GA 2968 3007 2958; GA 2978 2997 2957; GX 2957 2960 3072; GX 3072 3036 3047; GA 2966 2998 2956; GX 2956 2962 3070;
GX 2956 2959 3041; GA 2963 2996 2955; GX 2955 2958 3064; GX 2955 3070 3043; GA 2967 2999 2954; GA 2964 3005 2953;
GA 2971 3002 2952; GA 2974 3006 2951; GA 2965 3010 2950; GX 2950 2954 3066; GX 3064 3066 3078; GX 2957 3078 3044;
GX 3070 3066 3038; GA 2968 3003 2949; GA 2978 3004 2948; GX 2948 2960 3071].
(** aes128_ks.txt:1754-2003 *)
Definition aes_ks_file_g7 : list gate := [
GX 2951 3071 3034; GA 2966 3009 2947; GA 2963 3011 2946; GX 2946 2947 3053; GX 2952 3053 3058; GX 2953 3058 3063;
GX 2961 3063 3068; GX 2949 3053 3073; GX 2958 3068 3079; GX 3065 3079 5688; GX 5972 5688 6100; GX 6004 6100 6132;
GX 6036 6132 6164; GX 6068 6164 6196; GX 6100 5717 6228; GX 6132 6228 6260; GX 6164 6260 6292; GX 6196 6292 6324;
GX 6228 5745 6356; GX 6260 6356 6388; GX 6292 6388 6420; GX 6324 6420 6452; GX 6356 5773 6484; GX 6388 6484 6516;
GX 6420 6516 6548; GX 6452 6548 6580; GX 3072 3079 5687; GX 5973 5687 6101; GX 6005 6101 6133; GX 6037 6133 6165;
GX 6069 6165 6197; GX 6101 5716 6229; GX 6229 5744 6357; GX 6133 6229 6261; GX 6261 6357 6389; GX 6165 6261 6293;
GX 6197 6293 6325; GX 6357 5772 6485; GX 6293 6389 6421; GX 6325 6421 6453; GX 6389 6485 6517; GX 6421 6517 6549;
GX 6453 6549 6581; GX 2950 3073 3046; GX 3046 3047 3045; GI 3045 3015; GX 3073 3044 3014; GX 3068 3043 3013;
GX 3064 3063 3042; GX 3041 3042 5691; GX 5969 5691 6097; GX 6001 6097 6129; GX 6033 6129 6161; GX 6065 6161 6193;
GX 6097 5720 6225; GX 6129 6225 6257; GX 6225 5748 6353; GX 6161 6257 6289; GX 6193 6289 6321; GX 6324 6321 2517;
GX 6257 6353 6385; GX 6196 6193 2797; GX 6289 6385 6417; GX 6321 6417 6449; GX 6452 6449 2237; GX 6353 5776 6481;
GX 6385 6481 6513; GX 6417 6513 6545; GX 6449 6545 6577; GX 6580 6577 1957; GX 3036 3058 3035; GX 3034 3035 3033;
GI 3033 3082; GX 3082 3078 5686; GX 5974 5686 6102; GX 6102 5715 6230; GX 6230 5743 6358; GX 6006 6102 6134;
GX 6134 6230 6262; GX 6262 6358 6390; GX 6038 6134 6166; GX 6166 6262 6294; GX 6070 6166 6198; GX 6198 6294 6326;
GX 6321 6326 2516; GX 6326 6324 2519; GX 6325 6326 3508; GX 6193 6198 2796; GX 6198 6196 2799; GX 6197 6198 3236;
GX 6358 5771 6486; GX 6294 6390 6422; GX 6326 6422 6454; GX 6449 6454 2236; GX 6454 6452 2239; GX 6453 6454 3780;
GX 6390 6486 6518; GX 6422 6518 6550; GX 6454 6550 6582; GX 6577 6582 1956; GX 6582 6580 1959; GX 6581 6582 4052;
GA 2967 3008 2945; GX 2945 2947 3037; GX 3037 3038 3081; GX 3081 3071 3012; GI 3015 5684; GX 5976 5684 6104;
GX 6104 3317 6232; GX 6232 3589 6360; GX 6008 6104 6136; GX 6040 6136 6168; GX 6072 6168 6200; GX 6136 6232 6264;
GX 6264 6360 6392; GX 6168 6264 6296; GX 6200 6296 6328; GX 6360 3861 6488; GX 6392 6488 6520; GX 6296 6392 6424;
GX 6424 6520 6552; GX 6328 6424 6456; GX 6456 6552 6584; GI 3014 5685; GX 5975 5685 6103; GX 6007 6103 6135;
GX 6039 6135 6167; GX 6071 6167 6199; GX 6103 5714 6231; GX 6231 5742 6359; GX 6135 6231 6263; GX 6263 6359 6391;
GX 6167 6263 6295; GX 6199 6295 6327; GX 6321 6327 2518; GX 6327 6325 3524; GX 6326 3524 3526; GX 6327 6326 3545;
GX 2517 3545 2513; GX 3524 2517 2509; GX 6328 2509 2508; GA 2513 2509 2502; GX 6193 6199 2798; GX 6199 6197 3252;
GX 6198 3252 3254; GX 6199 6198 3273; GX 2797 3273 2793; GX 3252 2797 2789; GX 6200 2789 2788; GA 2793 2789 2782;
GX 6295 6391 6423; GX 6327 6423 6455; GX 6449 6455 2238; GX 6455 6453 3796; GX 6454 3796 3798; GX 6455 6454 3817;
GX 2237 3817 2233; GX 3796 2237 2229; GX 6456 2229 2228; GA 2233 2229 2222; GX 6359 5770 6487; GX 6391 6487 6519;
GX 6423 6519 6551; GX 6455 6551 6583; GX 6577 6583 1958; GX 6583 6581 4068; GX 6582 4068 4070; GX 6583 6582 4089;
GX 1957 4089 1953; GX 4068 1957 1949; GX 6584 1949 1948; GA 1953 1949 1942; GI 3013 5690; GX 5970 5690 6098;
GX 6002 6098 6130; GX 6034 6130 6162; GX 6066 6162 6194; GX 6098 5719 6226; GX 6226 5747 6354; GX 6130 6226 6258;
GX 6258 6354 6386; GX 6162 6258 6290; GX 6194 6290 6322; GX 6322 3526 2506; GX 6324 6322 3527; GX 2502 3527 3532;
GX 6328 6322 3533; GX 3533 3526 2505; GA 2517 2506 2496; GX 2496 3526 3528; GX 3532 3528 3538; GX 6194 3254 2786;
GX 6196 6194 3255; GX 2782 3255 3260; GX 6200 6194 3261; GX 3261 3254 2785; GA 2797 2786 2776; GX 2776 3254 3256;
GX 3260 3256 3266; GX 6290 6386 6418; GX 6322 6418 6450; GX 6450 3798 2226; GX 6452 6450 3799; GX 2222 3799 3804;
GX 6456 6450 3805; GX 3805 3798 2225; GA 2237 2226 2216; GX 2216 3798 3800; GX 3804 3800 3810; GX 6354 5775 6482;
GX 6386 6482 6514; GX 6418 6514 6546; GX 6450 6546 6578; GX 6578 4070 1946; GX 6580 6578 4071; GX 1942 4071 4076;
GX 6584 6578 4077; GX 4077 4070 1945; GA 1957 1946 1936; GX 1936 4070 4072; GX 4076 4072 4082; GI 3012 5689;
GX 5971 5689 6099; GX 6003 6099 6131; GX 6035 6131 6163; GX 6067 6163 6195; GX 6099 5718 6227; GX 6131 6227 6259;
GX 6163 6259 6291; GX 6195 6291 6323; GX 6323 3526 2503; GX 6323 6321 3525; GX 3525 2519 2504; GX 6323 3533 2515;
GX 6327 2515 2511; GX 3525 3533 2512; GX 3545 2512 2510; GX 3527 3525 3493; GX 3524 3493 2507; GX 3527 6323 3492;
GX 6328 3492 2514; GA 2510 2508 2501; GA 2514 6328 2500; GA 2518 2503 2499; GX 2499 3525 3531; GA 2511 2515 2498;
GA 2512 2505 2497; GA 2519 2504 2495; GX 2495 2501 3537; GX 6321 3537 3552].
(** aes128_ks.txt:2004-2253 *)
Definition aes_ks_file_g8 : list gate := [
GX 3552 3538 2493; GX 2495 2496 3507; GX 3507 3508 3559; GX 3559 3531 3556; GX 2498 3556 2492; GA 2516 2507 2494;
GX 2494 2497 3530; GX 2494 2500 3536; GX 2495 3530 3550; GX 6323 3536 3551; GX 3531 3530 3516; GX 3528 3516 2491;
GX 3537 3536 3515; GX 3525 3515 2490; GX 2498 3550 3506; GX 6327 3506 2485; GA 2493 2492 2489; GX 2489 2491 2488;
GX 2489 3551 3505; GX 3538 3505 2484; GA 2490 2488 2487; GX 2487 3538 3553; GX 3551 3553 2486; GX 2499 2487 3500;
GX 3532 3500 3496; GX 6321 3496 3499; GX 6323 3496 3495; GA 2484 2485 2483; GX 2483 2491 2482; GX 2489 2483 2481;
GX 2483 3550 3504; GX 2483 2500 3503; GX 3503 2497 3498; GX 3498 3499 2474; GA 2491 2481 2480; GX 2480 2488 2478;
GX 2480 2498 3535; GX 3535 3556 2472; GX 6327 3535 3543; GX 3543 3504 2479; GA 2486 2478 2477; GX 2477 2490 2476;
GX 2477 2501 3502; GX 3543 3502 3494; GX 3525 3494 3501; GX 3498 3501 2475; GX 2477 3553 3497; GX 3552 3497 2473;
GX 3494 3495 2471; GA 2472 2509 2470; GA 2479 2508 2469; GA 2482 6328 2468; GA 2473 2503 2467; GX 2467 2470 3541;
GI 3541 3512; GA 2476 2515 2466; GA 2486 2505 2465; GX 2465 2468 3548; GX 3548 3512 3523; GA 2474 2506 2464;
GX 2464 2470 3546; GX 2464 2467 3517; GA 2471 2504 2463; GX 2463 2466 3540; GX 2463 3546 3519; GA 2475 2507 2462;
GA 2472 2513 2461; GA 2479 2510 2460; GA 2482 2514 2459; GA 2473 2518 2458; GX 2458 2462 3542; GX 3540 3542 3554;
GX 2465 3554 3520; GX 3546 3542 3514; GA 2476 2511 2457; GA 2486 2512 2456; GX 2456 2468 3547; GX 2459 3547 3510;
GA 2474 2517 2455; GA 2471 2519 2454; GX 2454 2455 3529; GX 2460 3529 3534; GX 2461 3534 3539; GX 2469 3539 3544;
GX 2457 3529 3549; GX 2466 3544 3555; GX 3541 3555 5752; GX 3548 3555 5751; GX 2458 3549 3522; GX 3522 3523 3521;
GX 3549 3520 2522; GX 3544 3519 2521; GX 3540 3539 3518; GX 3517 3518 5755; GX 3512 3534 3511; GX 3510 3511 3509;
GI 3509 3558; GX 3558 3554 5750; GA 2475 2516 2453; GX 2453 2455 3513; GX 3513 3514 3557; GX 3557 3547 2520;
GI 2522 5749; GI 2521 5754; GI 2520 5753; GX 6227 5746 6355; GX 6259 6355 6387; GX 6195 3254 2783;
GX 6195 6193 3253; GX 3253 2799 2784; GX 6195 3261 2795; GX 6199 2795 2791; GX 3253 3261 2792; GX 3273 2792 2790;
GX 3255 3253 3221; GX 3252 3221 2787; GX 3255 6195 3220; GX 6200 3220 2794; GA 2790 2788 2781; GA 2794 6200 2780;
GA 2798 2783 2779; GX 2779 3253 3259; GA 2791 2795 2778; GA 2792 2785 2777; GA 2799 2784 2775; GX 2775 2781 3265;
GX 6193 3265 3280; GX 3280 3266 2773; GX 2775 2776 3235; GX 3235 3236 3287; GX 3287 3259 3284; GX 2778 3284 2772;
GA 2796 2787 2774; GX 2774 2777 3258; GX 2774 2780 3264; GX 2775 3258 3278; GX 6195 3264 3279; GX 3259 3258 3244;
GX 3256 3244 2771; GX 3265 3264 3243; GX 3253 3243 2770; GX 2778 3278 3234; GX 6199 3234 2765; GA 2773 2772 2769;
GX 2769 2771 2768; GX 2769 3279 3233; GX 3266 3233 2764; GA 2770 2768 2767; GX 2767 3266 3281; GX 3279 3281 2766;
GX 2779 2767 3228; GX 3260 3228 3224; GX 6193 3224 3227; GX 6195 3224 3223; GA 2764 2765 2763; GX 2763 2771 2762;
GX 2769 2763 2761; GX 2763 3278 3232; GX 2763 2780 3231; GX 3231 2777 3226; GX 3226 3227 2754; GA 2771 2761 2760;
GX 2760 2768 2758; GX 2760 2778 3263; GX 3263 3284 2752; GX 6199 3263 3271; GX 3271 3232 2759; GA 2766 2758 2757;
GX 2757 2770 2756; GX 2757 2781 3230; GX 3271 3230 3222; GX 3253 3222 3229; GX 3226 3229 2755; GX 2757 3281 3225;
GX 3280 3225 2753; GX 3222 3223 2751; GA 2752 2789 2750; GA 2759 2788 2749; GA 2762 6200 2748; GA 2753 2783 2747;
GX 2747 2750 3269; GI 3269 3240; GA 2756 2795 2746; GA 2766 2785 2745; GX 2745 2748 3276; GX 3276 3240 3251;
GA 2754 2786 2744; GX 2744 2750 3274; GX 2744 2747 3245; GA 2751 2784 2743; GX 2743 2746 3268; GX 2743 3274 3247;
GA 2755 2787 2742; GA 2752 2793 2741; GA 2759 2790 2740; GA 2762 2794 2739; GA 2753 2798 2738; GX 2738 2742 3270;
GX 3268 3270 3282; GX 2745 3282 3248; GX 3274 3270 3242; GA 2756 2791 2737; GA 2766 2792 2736; GX 2736 2748 3275;
GX 2739 3275 3238; GA 2754 2797 2735; GA 2751 2799 2734; GX 2734 2735 3257; GX 2740 3257 3262; GX 2741 3262 3267;
GX 2749 3267 3272; GX 2737 3257 3277; GX 2746 3272 3283; GX 3269 3283 5724; GX 6108 5724 6236; GX 6140 6236 6268;
GX 6172 6268 6300; GX 6204 6300 6332; GX 6236 5752 6364; GX 6268 6364 6396; GX 3276 3283 5723; GX 6109 5723 6237;
GX 6237 5751 6365; GX 6141 6237 6269; GX 6173 6269 6301; GX 6205 6301 6333; GX 6269 6365 6397; GX 2738 3277 3250;
GX 3250 3251 3249; GX 6112 3249 6240; GX 6240 3521 6368; GX 6144 6240 6272; GX 6176 6272 6304; GX 6208 6304 6336;
GX 6272 6368 6400; GX 3277 3248 2802; GX 3272 3247 2801; GX 3268 3267 3246; GX 3245 3246 5727; GX 6105 5727 6233;
GX 6233 5755 6361; GX 6137 6233 6265; GX 6169 6265 6297; GX 6201 6297 6329; GX 6332 6329 2307; GX 6265 6361 6393;
GX 6297 6393 6425; GX 3240 3262 3239; GX 3238 3239 3237; GI 3237 3286].
(** aes128_ks.txt:2254-2503 *)
Definition aes_ks_file_g9 : list gate := [
GX 3286 3282 5722; GX 6110 5722 6238; GX 6238 5750 130; GI 130 6366; GX 6142 6238 6270; GX 6270 6366 6398;
GX 6174 6270 6302; GX 6206 6302 6334; GX 6329 6334 2306; GX 6334 6332 2309; GX 6333 6334 3712; GA 2755 2796 2733;
GX 2733 2735 3241; GX 3241 3242 3285; GX 3285 3275 2800; GI 2802 5721; GX 6111 5721 129; GI 129 6239;
GX 6143 6239 6271; GX 6175 6271 6303; GX 6207 6303 6335; GX 6329 6335 2308; GX 6335 6333 3728; GX 6334 3728 3730;
GX 6335 6334 3749; GX 2307 3749 2303; GX 3728 2307 2299; GX 6336 2299 2298; GA 2303 2299 2292; GX 6239 5749 6367;
GX 6271 6367 6399; GI 2801 5726; GX 6106 5726 6234; GX 6138 6234 6266; GX 6170 6266 6298; GX 6202 6298 6330;
GX 6330 3730 2296; GX 6332 6330 3731; GX 2292 3731 3736; GX 6336 6330 3737; GX 3737 3730 2295; GA 2307 2296 2286;
GX 2286 3730 3732; GX 3736 3732 3742; GX 6234 5754 6362; GX 6266 6362 6394; GX 6298 6394 6426; GI 2800 5725;
GX 6107 5725 6235; GX 6235 5753 6363; GX 6139 6235 6267; GX 6171 6267 6299; GX 6203 6299 6331; GX 6331 3730 2293;
GX 6331 6329 3729; GX 3729 2309 2294; GX 6331 3737 2305; GX 6335 2305 2301; GX 3729 3737 2302; GX 3749 2302 2300;
GX 3731 3729 3697; GX 3728 3697 2297; GX 3731 6331 3696; GX 6336 3696 2304; GA 2300 2298 2291; GA 2304 6336 2290;
GA 2308 2293 2289; GX 2289 3729 3735; GA 2301 2305 2288; GA 2302 2295 2287; GA 2309 2294 2285; GX 2285 2291 3741;
GX 6329 3741 3756; GX 3756 3742 2283; GX 2285 2286 3711; GX 3711 3712 3763; GX 3763 3735 3760; GX 2288 3760 2282;
GA 2306 2297 2284; GX 2284 2287 3734; GX 2284 2290 3740; GX 2285 3734 3754; GX 6331 3740 3755; GX 3735 3734 3720;
GX 3732 3720 2281; GX 3741 3740 3719; GX 3729 3719 2280; GX 2288 3754 3710; GX 6335 3710 2275; GA 2283 2282 2279;
GX 2279 2281 2278; GX 2279 3755 3709; GX 3742 3709 2274; GA 2280 2278 2277; GX 2277 3742 3757; GX 3755 3757 2276;
GX 2289 2277 3704; GX 3736 3704 3700; GX 6329 3700 3703; GX 6331 3700 3699; GA 2274 2275 2273; GX 2273 2281 2272;
GX 2279 2273 2271; GX 2273 3754 3708; GX 2273 2290 3707; GX 3707 2287 3702; GX 3702 3703 2264; GA 2281 2271 2270;
GX 2270 2278 2268; GX 2270 2288 3739; GX 3739 3760 2262; GX 6335 3739 3747; GX 3747 3708 2269; GA 2276 2268 2267;
GX 2267 2280 2266; GX 2267 2291 3706; GX 3747 3706 3698; GX 3729 3698 3705; GX 3702 3705 2265; GX 2267 3757 3701;
GX 3756 3701 2263; GX 3698 3699 2261; GA 2262 2299 2260; GA 2269 2298 2259; GA 2272 6336 2258; GA 2263 2293 2257;
GX 2257 2260 3745; GI 3745 3716; GA 2266 2305 2256; GA 2276 2295 2255; GX 2255 2258 3752; GX 3752 3716 3727;
GA 2264 2296 2254; GX 2254 2260 3750; GX 2254 2257 3721; GA 2261 2294 2253; GX 2253 2256 3744; GX 2253 3750 3723;
GA 2265 2297 2252; GA 2262 2303 2251; GA 2269 2300 2250; GA 2272 2304 2249; GA 2263 2308 2248; GX 2248 2252 3746;
GX 3744 3746 3758; GX 2255 3758 3724; GX 3750 3746 3718; GA 2266 2301 2247; GA 2276 2302 2246; GX 2246 2258 3751;
GX 2249 3751 3714; GA 2264 2307 2245; GA 2261 2309 2244; GX 2244 2245 3733; GX 2250 3733 3738; GX 2251 3738 3743;
GX 2259 3743 3748; GX 2247 3733 3753; GX 2256 3748 3759; GX 3745 3759 5731; GX 3752 3759 5730; GX 2248 3753 3726;
GX 3726 3727 3725; GX 3753 3724 2312; GX 3748 3723 2311; GX 3744 3743 3722; GX 3721 3722 5734; GX 3716 3738 3715;
GX 3714 3715 3713; GI 3713 3762; GX 3762 3758 5729; GA 2265 2306 2243; GX 2243 2245 3717; GX 3717 3718 3761;
GX 3761 3751 2310; GI 2312 5728; GI 2311 5733; GI 2310 5732; GX 6209 5734 6337; GX 6216 3725 6344;
GX 6210 5733 6338; GX 6267 6363 6395; GX 6241 6337 6369; GX 6242 6338 6370; GX 6211 5732 6339; GX 6243 6339 6371;
GX 6212 5731 6340; GX 6213 5730 6341; GX 6245 6341 6373; GX 6214 5729 6342; GX 6246 6342 6374; GX 6215 5728 6343;
GX 6247 6343 6375; GX 6244 6340 6372; GX 6248 6344 6376; GX 6304 6400 6432; GX 6299 6395 6427; GX 6300 6396 6428;
GX 6301 6397 6429; GX 6302 6398 6430; GX 6303 6399 6431; GX 6334 6430 6462; GX 6330 6426 6458; GX 6278 6374 6406;
GX 6291 6387 6419; GX 6323 6419 6451; GX 6451 3798 2223; GX 6451 6449 3797; GX 3797 2239 2224; GX 6451 3805 2235;
GX 6455 2235 2231; GX 3797 3805 2232; GX 3817 2232 2230; GX 3799 3797 3765; GX 3796 3765 2227; GX 3799 6451 3764;
GX 6456 3764 2234; GA 2230 2228 2221; GA 2234 6456 2220; GA 2238 2223 2219; GX 2219 3797 3803; GA 2231 2235 2218;
GA 2232 2225 2217; GA 2239 2224 2215; GX 2215 2221 3809; GX 6449 3809 3824; GX 3824 3810 2213; GX 2215 2216 3779;
GX 3779 3780 3831; GX 3831 3803 3828; GX 2218 3828 2212; GA 2236 2227 2214; GX 2214 2217 3802; GX 2214 2220 3808;
GX 2215 3802 3822; GX 6451 3808 3823; GX 3803 3802 3788; GX 3800 3788 2211; GX 3809 3808 3787; GX 3797 3787 2210;
GX 2218 3822 3778; GX 6455 3778 2205; GA 2213 2212 2209; GX 2209 2211 2208; GX 2209 3823 3777; GX 3810 3777 2204;
GA 2210 2208 2207; GX 2207 3810 3825; GX 3823 3825 2206; GX 2219 2207 3772].
(** aes128_ks.txt:2504-2753 *)
Definition aes_ks_file_g10 : list gate := [
GX 3804 3772 3768; GX 6449 3768 3771; GX 6451 3768 3767; GA 2204 2205 2203; GX 2203 2211 2202; GX 2209 2203 2201;
GX 2203 3822 3776; GX 2203 2220 3775; GX 3775 2217 3770; GX 3770 3771 2194; GA 2211 2201 2200; GX 2200 2208 2198;
GX 2200 2218 3807; GX 3807 3828 2192; GX 6455 3807 3815; GX 3815 3776 2199; GA 2206 2198 2197; GX 2197 2210 2196;
GX 2197 2221 3774; GX 3815 3774 3766; GX 3797 3766 3773; GX 3770 3773 2195; GX 2197 3825 3769; GX 3824 3769 2193;
GX 3766 3767 2191; GA 2192 2229 2190; GA 2199 2228 2189; GA 2202 6456 2188; GA 2193 2223 2187; GX 2187 2190 3813;
GI 3813 3784; GA 2196 2235 2186; GA 2206 2225 2185; GX 2185 2188 3820; GX 3820 3784 3795; GA 2194 2226 2184;
GX 2184 2190 3818; GX 2184 2187 3789; GA 2191 2224 2183; GX 2183 2186 3812; GX 2183 3818 3791; GA 2195 2227 2182;
GA 2192 2233 2181; GA 2199 2230 2180; GA 2202 2234 2179; GA 2193 2238 2178; GX 2178 2182 3814; GX 3812 3814 3826;
GX 2185 3826 3792; GX 3818 3814 3786; GA 2196 2231 2177; GA 2206 2232 2176; GX 2176 2188 3819; GX 2179 3819 3782;
GA 2194 2237 2175; GA 2191 2239 2174; GX 2174 2175 3801; GX 2180 3801 3806; GX 2181 3806 3811; GX 2189 3811 3816;
GX 2177 3801 3821; GX 2186 3816 3827; GX 3813 3827 5780; GX 3820 3827 5779; GX 2178 3821 3794; GX 3794 3795 3793;
GX 3821 3792 2242; GX 3816 3791 2241; GX 3812 3811 3790; GX 3789 3790 5783; GX 3784 3806 3783; GX 3782 3783 3781;
GI 3781 3830; GX 3830 3826 5778; GA 2195 2236 2173; GX 2173 2175 3785; GX 3785 3786 3829; GX 3829 3819 2240;
GI 2242 5777; GI 2241 5782; GI 2240 5781; GX 6366 5778 6494; GX 6367 5777 6495; GX 6335 6431 6463;
GX 6463 6462 4021; GX 6398 6494 6526; GX 6430 6526 6558; GX 6462 6558 6590; GX 6399 6495 6527; GX 6431 6527 6559;
GX 6463 6559 6591; GX 6591 6590 4293; GX 6310 6406 6438; GX 6368 3793 6496; GX 6361 5783 6489; GX 6362 5782 6490;
GX 6363 5781 6491; GX 6395 6491 6523; GX 6427 6523 6555; GX 6355 5774 6483; GX 6364 5780 6492; GX 6396 6492 6524;
GX 6428 6524 6556; GX 6273 6369 6401; GX 6305 6401 6433; GX 6433 6438 2096; GX 6274 6370 6402; GX 6306 6402 6434;
GX 6275 6371 6403; GX 6276 6372 6404; GX 6308 6404 6436; GX 6436 6434 3935; GX 6436 6433 2097; GX 6438 6436 2099;
GX 6277 6373 6405; GX 6309 6405 6437; GX 6437 6438 3916; GX 6279 6375 6407; GX 6280 6376 6408; GX 6312 6408 6440;
GX 6440 6434 3941; GX 6329 6425 6457; GX 6457 6463 2028; GX 6457 6462 2026; GX 6331 6427 6459; GX 6459 6457 4001;
GX 6459 6555 6587; GX 6332 6428 6460; GX 6460 6458 4003; GX 6460 6457 2027; GX 2027 4021 2023; GX 6462 6460 2029;
GX 4001 2029 2014; GX 4003 4001 3969; GX 4003 6459 3968; GA 2029 2014 2005; GX 6460 6556 6588; GX 6590 6588 1749;
GX 6333 6429 6461; GX 6463 6461 4000; GX 6462 4000 4002; GX 6458 4002 2016; GX 6459 4002 2013; GX 4000 2027 2019;
GX 6461 6462 3984; GX 4000 3969 2017; GA 2023 2019 2012; GX 2012 4003 4008; GA 2028 2013 2009; GX 2009 4001 4007;
GA 2027 2016 2006; GX 2006 4002 4004; GX 4008 4004 4014; GX 2005 2006 3983; GX 3983 3984 4035; GX 4035 4007 4032;
GA 2026 2017 2004; GX 6336 6432 6464; GX 6464 2019 2018; GX 6464 6458 4009; GX 4009 4002 2015; GX 6459 4009 2025;
GX 6463 2025 2021; GX 4001 4009 2022; GX 4021 2022 2020; GX 6464 3968 2024; GA 2020 2018 2011; GX 2005 2011 4013;
GX 6457 4013 4028; GX 4028 4014 2003; GA 2024 6464 2010; GX 2004 2010 4012; GX 6459 4012 4027; GX 4013 4012 3991;
GX 4001 3991 2000; GA 2021 2025 2008; GX 2008 4032 2002; GA 2022 2015 2007; GX 2004 2007 4006; GX 2005 4006 4026;
GX 4007 4006 3992; GX 4004 3992 2001; GX 2008 4026 3982; GX 6463 3982 1995; GA 2003 2002 1999; GX 1999 2001 1998;
GX 1999 4027 3981; GX 4014 3981 1994; GA 2000 1998 1997; GX 1997 4014 4029; GX 4027 4029 1996; GX 2009 1997 3976;
GX 4008 3976 3972; GX 6457 3972 3975; GX 6459 3972 3971; GA 1994 1995 1993; GX 1993 2001 1992; GX 1999 1993 1991;
GX 1993 4026 3980; GX 1993 2010 3979; GX 3979 2007 3974; GX 3974 3975 1984; GA 2001 1991 1990; GX 1990 1998 1988;
GX 1990 2008 4011; GX 4011 4032 1982; GX 6463 4011 4019; GX 4019 3980 1989; GA 1996 1988 1987; GX 1987 2000 1986;
GX 1987 2011 3978; GX 4019 3978 3970; GX 4001 3970 3977; GX 3974 3977 1985; GX 1987 4029 3973; GX 4028 3973 1983;
GX 3970 3971 1981; GA 1982 2019 1980; GA 1989 2018 1979; GA 1992 6464 1978; GA 1983 2013 1977; GX 1977 1980 4017;
GI 4017 3988; GA 1986 2025 1976; GA 1996 2015 1975; GX 1975 1978 4024; GX 4024 3988 3999; GA 1984 2016 1974;
GX 1974 1980 4022; GX 1974 1977 3993; GA 1981 2014 1973; GX 1973 1976 4016; GX 1973 4022 3995; GA 1985 2017 1972;
GA 1982 2023 1971; GA 1989 2020 1970; GA 1992 2024 1969; GA 1983 2028 1968; GX 1968 1972 4018; GX 4016 4018 4030;
GX 1975 4030 3996; GX 4022 4018 3990; GA 1986 2021 1967; GA 1996 2022 1966; GX 1966 1978 4023; GX 1969 4023 3986;
GA 1984 2027 1965; GA 1981 2029 1964; GX 1964 1965 4005; GX 1970 4005 4010].
(** aes128_ks.txt:2754-3003 *)
Definition aes_ks_file_g11 : list gate := [
GX 1971 4010 4015; GX 1979 4015 4020; GX 1967 4005 4025; GX 1976 4020 4031; GX 4017 4031 5759; GX 4024 4031 5758;
GX 1968 4025 3998; GX 3998 3999 3997; GX 4025 3996 2032; GX 4020 3995 2031; GX 4016 4015 3994; GX 3993 3994 5762;
GX 3988 4010 3987; GX 3986 3987 3985; GI 3985 4034; GX 4034 4030 5757; GA 1985 2026 1963; GX 1963 1965 3989;
GX 3989 3990 4033; GX 4033 4023 2030; GI 2032 5756; GI 2031 5761; GI 2030 5760; GX 6343 5756 6471;
GX 6375 6471 6503; GX 6407 6503 6535; GX 6344 3997 6472; GX 6376 6472 6504; GX 6408 6504 6536; GX 6440 6536 6568;
GX 6337 5762 6465; GX 6338 5761 6466; GX 6370 6466 6498; GX 6402 6498 6530; GX 6434 6530 6562; GX 6568 6562 4213;
GX 6307 6403 6435; GX 6435 6433 3933; GX 3933 2099 2084; GX 6435 3941 2095; GX 3933 3941 2092; GX 3935 3933 3901;
GX 3935 6435 3900; GX 6440 3900 2094; GA 2094 6440 2080; GA 2099 2084 2075; GX 6311 6407 6439; GX 6433 6439 2098;
GX 6439 2095 2091; GX 6439 6437 3932; GX 6438 3932 3934; GX 6434 3934 2086; GX 6435 3934 2083; GX 3941 3934 2085;
GX 6439 6438 3953; GX 2097 3953 2093; GX 3953 2092 2090; GX 3932 2097 2089; GX 6440 2089 2088; GX 3932 3901 2087;
GA 2093 2089 2082; GX 2082 3935 3940; GA 2090 2088 2081; GX 2075 2081 3945; GX 6433 3945 3960; GA 2098 2083 2079;
GX 2079 3933 3939; GA 2091 2095 2078; GA 2092 2085 2077; GA 2097 2086 2076; GX 2076 3934 3936; GX 3940 3936 3946;
GX 3960 3946 2073; GX 2075 2076 3915; GX 3915 3916 3967; GX 3967 3939 3964; GX 2078 3964 2072; GA 2096 2087 2074;
GX 2074 2077 3938; GX 2074 2080 3944; GX 2075 3938 3958; GX 6435 3944 3959; GX 3939 3938 3924; GX 3936 3924 2071;
GX 3945 3944 3923; GX 3933 3923 2070; GX 2078 3958 3914; GX 6439 3914 2065; GA 2073 2072 2069; GX 2069 2071 2068;
GX 2069 3959 3913; GX 3946 3913 2064; GA 2070 2068 2067; GX 2067 3946 3961; GX 3959 3961 2066; GX 2079 2067 3908;
GX 3940 3908 3904; GX 6433 3904 3907; GX 6435 3904 3903; GA 2064 2065 2063; GX 2063 2071 2062; GX 2069 2063 2061;
GX 2063 3958 3912; GX 2063 2080 3911; GX 3911 2077 3906; GX 3906 3907 2054; GA 2071 2061 2060; GX 2060 2068 2058;
GX 2060 2078 3943; GX 3943 3964 2052; GX 6439 3943 3951; GX 3951 3912 2059; GA 2066 2058 2057; GX 2057 2070 2056;
GX 2057 2081 3910; GX 3951 3910 3902; GX 3933 3902 3909; GX 3906 3909 2055; GX 2057 3961 3905; GX 3960 3905 2053;
GX 3902 3903 2051; GA 2052 2089 2050; GA 2059 2088 2049; GA 2062 6440 2048; GA 2053 2083 2047; GX 2047 2050 3949;
GI 3949 3920; GA 2056 2095 2046; GA 2066 2085 2045; GX 2045 2048 3956; GX 3956 3920 3931; GA 2054 2086 2044;
GX 2044 2050 3954; GX 2044 2047 3925; GA 2051 2084 2043; GX 2043 2046 3948; GX 2043 3954 3927; GA 2055 2087 2042;
GA 2052 2093 2041; GA 2059 2090 2040; GA 2062 2094 2039; GA 2053 2098 2038; GX 2038 2042 3950; GX 3948 3950 3962;
GX 2045 3962 3928; GX 3954 3950 3922; GA 2056 2091 2037; GA 2066 2092 2036; GX 2036 2048 3955; GX 2039 3955 3918;
GA 2054 2097 2035; GA 2051 2099 2034; GX 2034 2035 3937; GX 2040 3937 3942; GX 2041 3942 3947; GX 2049 3947 3952;
GX 2037 3937 3957; GX 2046 3952 3963; GX 3949 3963 5766; GX 3956 3963 5765; GX 2038 3957 3930; GX 3930 3931 3929;
GX 3957 3928 2102; GX 3952 3927 2101; GX 3948 3947 3926; GX 3925 3926 5769; GX 3920 3942 3919; GX 3918 3919 3917;
GI 3917 3966; GX 3966 3962 5764; GA 2055 2096 2033; GX 2033 2035 3921; GX 3921 3922 3965; GX 3965 3955 2100;
GI 2102 5763; GI 2101 5768; GI 2100 5767; GX 6439 6535 6567; GX 6347 5767 6475; GX 6379 6475 6507;
GX 6411 6507 6539; GX 6443 6539 6571; GX 6345 5769 6473; GX 6377 6473 6505; GX 6409 6505 6537; GX 6441 6537 6569;
GX 6571 6569 4137; GX 6348 5766 6476; GX 6349 5765 6477; GX 6350 5764 6478; GX 6382 6478 6510; GX 6414 6510 6542;
GX 6446 6542 6574; GX 6569 6574 1886; GX 6351 5763 6479; GX 6383 6479 6511; GX 6415 6511 6543; GX 6447 6543 6575;
GX 6569 6575 1888; GX 6575 6574 4157; GX 6352 3929 6480; GX 6365 5779 131; GI 131 6493; GX 6346 5768 6474;
GX 6378 6474 6506; GX 6410 6506 6538; GX 6442 6538 6570; GX 6339 5760 6467; GX 6371 6467 6499; GX 6403 6499 6531;
GX 6435 6531 6563; GX 6563 4213 1815; GX 6567 1815 1811; GA 1811 1815 1798; GX 6340 5759 6468; GX 6372 6468 6500;
GX 6404 6500 6532; GX 6436 6532 6564; GX 6564 6562 4207; GX 4207 6563 4172; GX 6568 4172 1814; GA 1814 6568 1800;
GX 6341 5758 6469; GX 6373 6469 6501; GX 6405 6501 6533; GX 6437 6533 6565; GX 6567 6565 4204; GX 6342 5757 6470;
GX 6374 6470 6502; GX 6406 6502 6534; GX 6438 6534 6566; GX 6566 4204 4206; GX 6562 4206 1806; GX 6563 4206 1803;
GX 4213 4206 1805; GX 6567 6566 4225; GX 6566 6564 1819; GX 6565 6566 4188; GX 6393 6489 6521; GX 6425 6521 6553;
GX 6457 6553 6585; GX 6585 6591 1748; GX 6585 6590 1746; GX 6587 6585 4273; GX 4273 1749 1734; GX 6588 6585 1747;
GX 1747 4293 1743; GA 1749 1734 1725; GX 6394 6490 6522; GX 6426 6522 6554].
(** aes128_ks.txt:3004-3253 *)
Definition aes_ks_file_g12 : list gate := [
GX 6458 6554 6586; GX 6588 6586 4275; GX 4275 4273 4241; GX 4275 6587 4240; GX 6397 6493 6525; GX 6429 6525 6557;
GX 6461 6557 6589; GX 6591 6589 4272; GX 6590 4272 4274; GX 6586 4274 1736; GX 6587 4274 1733; GX 4272 1747 1739;
GX 6589 6590 4256; GX 4272 4241 1737; GA 1743 1739 1732; GX 1732 4275 4280; GA 1748 1733 1729; GX 1729 4273 4279;
GA 1747 1736 1726; GX 1726 4274 4276; GX 4280 4276 4286; GX 1725 1726 4255; GX 4255 4256 4307; GX 4307 4279 4304;
GA 1746 1737 1724; GX 6400 6496 6528; GX 6432 6528 6560; GX 6464 6560 6592; GX 6592 1739 1738; GX 6592 6586 4281;
GX 4281 4274 1735; GX 6587 4281 1745; GX 6591 1745 1741; GX 4273 4281 1742; GX 4293 1742 1740; GX 6592 4240 1744;
GA 1740 1738 1731; GX 1725 1731 4285; GX 6585 4285 4300; GX 4300 4286 1723; GA 1744 6592 1730; GX 1724 1730 4284;
GX 6587 4284 4299; GX 4285 4284 4263; GX 4273 4263 1720; GA 1741 1745 1728; GX 1728 4304 1722; GA 1742 1735 1727;
GX 1724 1727 4278; GX 1725 4278 4298; GX 4279 4278 4264; GX 4276 4264 1721; GX 1728 4298 4254; GX 6591 4254 1715;
GA 1723 1722 1719; GX 1719 1721 1718; GX 1719 4299 4253; GX 4286 4253 1714; GA 1720 1718 1717; GX 1717 4286 4301;
GX 4299 4301 1716; GX 1729 1717 4248; GX 4280 4248 4244; GX 6585 4244 4247; GX 6587 4244 4243; GA 1714 1715 1713;
GX 1713 1721 1712; GX 1719 1713 1711; GX 1713 4298 4252; GX 1713 1730 4251; GX 4251 1727 4246; GX 4246 4247 1704;
GA 1721 1711 1710; GX 1710 1718 1708; GX 1710 1728 4283; GX 4283 4304 1702; GX 6591 4283 4291; GX 4291 4252 1709;
GA 1716 1708 1707; GX 1707 1720 1706; GX 1707 1731 4250; GX 4291 4250 4242; GX 4273 4242 4249; GX 4246 4249 1705;
GX 1707 4301 4245; GX 4300 4245 1703; GX 4242 4243 1701; GA 1702 1739 1700; GA 1709 1738 1699; GA 1712 6592 1698;
GA 1703 1733 1697; GX 1697 1700 4289; GI 4289 4260; GA 1706 1745 1696; GA 1716 1735 1695; GX 1695 1698 4296;
GX 4296 4260 4271; GA 1704 1736 1694; GX 1694 1700 4294; GX 1694 1697 4265; GA 1701 1734 1693; GX 1693 1696 4288;
GX 1693 4294 4267; GA 1705 1737 1692; GA 1702 1743 1691; GA 1709 1740 1690; GA 1712 1744 1689; GA 1703 1748 1688;
GX 1688 1692 4290; GX 4288 4290 4302; GX 1695 4302 4268; GX 4294 4290 4262; GA 1706 1741 1687; GA 1716 1742 1686;
GX 1686 1698 4295; GX 1689 4295 4258; GA 1704 1747 1685; GA 1701 1749 1684; GX 1684 1685 4277; GX 1690 4277 4282;
GX 1691 4282 4287; GX 1699 4287 4292; GX 1687 4277 4297; GX 1696 4292 4303; GX 4289 4303 5787; GX 4296 4303 5786;
GX 1688 4297 4270; GX 4270 4271 4269; GX 4297 4268 1752; GX 4292 4267 1751; GX 4288 4287 4266; GX 4265 4266 5790;
GX 4260 4282 4259; GX 4258 4259 4257; GI 4257 4306; GX 4306 4302 5785; GA 1705 1746 1683; GX 1683 1685 4261;
GX 4261 4262 4305; GX 4305 4295 1750; GI 1752 5784; GI 1751 5789; GI 1750 5788; GX 6468 5787 6596;
GX 6467 5788 6595; GX 6471 5784 6599; GX 6469 5786 6597; GX 6500 6596 6628; GX 6501 6597 6629; GX 6503 6599 6631;
GX 6532 6628 6660; GX 6533 6629 6661; GX 6535 6631 6663; GX 6564 6660 6692; GX 6565 6661 6693; GX 6567 6663 6695;
GX 6695 6693 4476; GX 6472 4269 6600; GX 6504 6600 6632; GX 6536 6632 6664; GX 6568 6664 6696; GX 6499 6595 6627;
GX 6531 6627 6659; GX 6563 6659 6691; GX 6465 5790 6593; GX 6470 5785 6598; GX 6502 6598 6630; GX 6534 6630 6662;
GX 6566 6662 6694; GX 6694 4476 4478; GX 6691 4478 1523; GX 6695 6694 4497; GX 6694 6692 1539; GX 6693 6694 4460;
GX 6387 6483 6515; GX 6419 6515 6547; GX 6451 6547 6579; GX 6579 4070 1943; GX 6579 6577 4069; GX 4069 1959 1944;
GX 6579 4077 1955; GX 6583 1955 1951; GX 4069 4077 1952; GX 4089 1952 1950; GX 4071 4069 4037; GX 4068 4037 1947;
GX 4071 6579 4036; GX 6584 4036 1954; GA 1950 1948 1941; GA 1954 6584 1940; GA 1958 1943 1939; GX 1939 4069 4075;
GA 1951 1955 1938; GA 1952 1945 1937; GA 1959 1944 1935; GX 1935 1941 4081; GX 6577 4081 4096; GX 4096 4082 1933;
GX 1935 1936 4051; GX 4051 4052 4103; GX 4103 4075 4100; GX 1938 4100 1932; GA 1956 1947 1934; GX 1934 1937 4074;
GX 1934 1940 4080; GX 1935 4074 4094; GX 6579 4080 4095; GX 4075 4074 4060; GX 4072 4060 1931; GX 4081 4080 4059;
GX 4069 4059 1930; GX 1938 4094 4050; GX 6583 4050 1925; GA 1933 1932 1929; GX 1929 1931 1928; GX 1929 4095 4049;
GX 4082 4049 1924; GA 1930 1928 1927; GX 1927 4082 4097; GX 4095 4097 1926; GX 1939 1927 4044; GX 4076 4044 4040;
GX 6577 4040 4043; GX 6579 4040 4039; GA 1924 1925 1923; GX 1923 1931 1922; GX 1929 1923 1921; GX 1923 4094 4048;
GX 1923 1940 4047; GX 4047 1937 4042; GX 4042 4043 1914; GA 1931 1921 1920; GX 1920 1928 1918; GX 1920 1938 4079;
GX 4079 4100 1912; GX 6583 4079 4087; GX 4087 4048 1919; GA 1926 1918 1917; GX 1917 1930 1916; GX 1917 1941 4046;
GX 4087 4046 4038; GX 4069 4038 4045; GX 4042 4045 1915; GX 1917 4097 4041; GX 4096 4041 1913; GX 4038 4039 1911;
GA 1912 1949 1910; GA 1919 1948 1909; GA 1922 6584 1908; GA 1913 1943 1907].
(** aes128_ks.txt:3254-3503 *)
Definition aes_ks_file_g13 : list gate := [
GX 1907 1910 4085; GI 4085 4056; GA 1916 1955 1906; GA 1926 1945 1905; GX 1905 1908 4092; GX 4092 4056 4067;
GA 1914 1946 1904; GX 1904 1910 4090; GX 1904 1907 4061; GA 1911 1944 1903; GX 1903 1906 4084; GX 1903 4090 4063;
GA 1915 1947 1902; GA 1912 1953 1901; GA 1919 1950 1900; GA 1922 1954 1899; GA 1913 1958 1898; GX 1898 1902 4086;
GX 4084 4086 4098; GX 1905 4098 4064; GX 4090 4086 4058; GA 1916 1951 1897; GA 1926 1952 1896; GX 1896 1908 4091;
GX 1899 4091 4054; GA 1914 1957 1895; GA 1911 1959 1894; GX 1894 1895 4073; GX 1900 4073 4078; GX 1901 4078 4083;
GX 1909 4083 4088; GX 1897 4073 4093; GX 1906 4088 4099; GX 4085 4099 5808; GX 4092 4099 5807; GX 1898 4093 4066;
GX 4066 4067 4065; GX 4093 4064 1962; GX 4088 4063 1961; GX 4084 4083 4062; GX 4061 4062 5811; GX 4056 4078 4055;
GX 4054 4055 4053; GI 4053 4102; GX 4102 4098 5806; GA 1915 1956 1893; GX 1893 1895 4057; GX 4057 4058 4101;
GX 4101 4091 1960; GI 1962 5805; GI 1961 5810; GI 1960 5809; GX 6493 5807 6621; GX 6492 5808 132;
GX 6525 6621 6653; GX 6557 6653 6685; GX 6589 6685 6717; GX 6495 5805 6623; GX 6527 6623 6655; GX 6559 6655 6687;
GX 6591 6687 6719; GX 6719 6717 4544; GX 6496 4065 6624; GX 6528 6624 6656; GX 6560 6656 6688; GX 6592 6688 6720;
GI 132 6620; GX 6524 6620 6652; GX 6556 6652 6684; GX 6588 6684 6716; GX 6490 5810 6618; GX 6522 6618 6650;
GX 6554 6650 6682; GX 6586 6682 6714; GX 6716 6714 4547; GX 6720 6714 4553; GX 6494 5806 6622; GX 6526 6622 6654;
GX 6558 6654 6686; GX 6590 6686 6718; GX 6718 4544 4546; GX 6714 4546 1456; GX 4553 4546 1455; GX 6719 6718 4565;
GX 6718 6716 1469; GX 6717 6718 4528; GX 6491 5809 6619; GX 6523 6619 6651; GX 6555 6651 6683; GX 6587 6683 6715;
GX 6715 4546 1453; GX 6715 4553 1465; GX 6719 1465 1461; GX 4547 6715 4512; GX 6720 4512 1464; GA 1464 6720 1450;
GA 1461 1465 1448; GX 6380 6476 6508; GX 6412 6508 6540; GX 6444 6540 6572; GX 6572 6570 4139; GX 6572 6569 1887;
GX 1887 4157 1883; GX 6574 6572 1889; GX 4137 1889 1874; GX 4139 4137 4105; GX 4139 6571 4104; GA 1889 1874 1865;
GX 6381 6477 6509; GX 6413 6509 6541; GX 6384 6480 6512; GX 6416 6512 6544; GX 6448 6544 6576; GX 6576 6570 4145;
GX 6571 4145 1885; GX 6575 1885 1881; GX 4137 4145 1882; GX 4157 1882 1880; GX 6576 4104 1884; GA 1884 6576 1870;
GA 1881 1885 1868; GX 6369 6465 6497; GX 6401 6497 6529; GX 6497 6593 6625; GX 6529 6625 6657; GX 6445 6541 6573;
GX 6575 6573 4136; GX 6574 4136 4138; GX 6570 4138 1876; GX 6571 4138 1873; GX 4145 4138 1875; GX 4136 1887 1879;
GX 6576 1879 1878; GX 6573 6574 4120; GX 4136 4105 1877; GA 1883 1879 1872; GX 1872 4139 4144; GA 1880 1878 1871;
GX 1865 1871 4149; GX 6569 4149 4164; GA 1888 1873 1869; GX 1869 4137 4143; GA 1882 1875 1867; GA 1887 1876 1866;
GX 1866 4138 4140; GX 4144 4140 4150; GX 4164 4150 1863; GX 1865 1866 4119; GX 4119 4120 4171; GX 4171 4143 4168;
GX 1868 4168 1862; GA 1886 1877 1864; GX 1864 1867 4142; GX 1864 1870 4148; GX 1865 4142 4162; GX 6571 4148 4163;
GX 4143 4142 4128; GX 4140 4128 1861; GX 4149 4148 4127; GX 4137 4127 1860; GX 1868 4162 4118; GX 6575 4118 1855;
GA 1863 1862 1859; GX 1859 1861 1858; GX 1859 4163 4117; GX 4150 4117 1854; GA 1860 1858 1857; GX 1857 4150 4165;
GX 4163 4165 1856; GX 1869 1857 4112; GX 4144 4112 4108; GX 6569 4108 4111; GX 6571 4108 4107; GA 1854 1855 1853;
GX 1853 1861 1852; GX 1859 1853 1851; GX 1853 4162 4116; GX 1853 1870 4115; GX 4115 1867 4110; GX 4110 4111 1844;
GA 1861 1851 1850; GX 1850 1858 1848; GX 1850 1868 4147; GX 4147 4168 1842; GX 6575 4147 4155; GX 4155 4116 1849;
GA 1856 1848 1847; GX 1847 1860 1846; GX 1847 1871 4114; GX 4155 4114 4106; GX 4137 4106 4113; GX 4110 4113 1845;
GX 1847 4165 4109; GX 4164 4109 1843; GX 4106 4107 1841; GA 1842 1879 1840; GA 1849 1878 1839; GA 1852 6576 1838;
GA 1843 1873 1837; GX 1837 1840 4153; GI 4153 4124; GA 1846 1885 1836; GA 1856 1875 1835; GX 1835 1838 4160;
GX 4160 4124 4135; GA 1844 1876 1834; GX 1834 1840 4158; GX 1834 1837 4129; GA 1841 1874 1833; GX 1833 1836 4152;
GX 1833 4158 4131; GA 1845 1877 1832; GA 1842 1883 1831; GA 1849 1880 1830; GA 1852 1884 1829; GA 1843 1888 1828;
GX 1828 1832 4154; GX 4152 4154 4166; GX 1835 4166 4132; GX 4158 4154 4126; GA 1846 1881 1827; GA 1856 1882 1826;
GX 1826 1838 4159; GX 1829 4159 4122; GA 1844 1887 1825; GA 1841 1889 1824; GX 1824 1825 4141; GX 1830 4141 4146;
GX 1831 4146 4151; GX 1839 4151 4156; GX 1827 4141 4161; GX 1836 4156 4167; GX 4153 4167 5801; GX 4160 4167 5800;
GX 1828 4161 4134; GX 4134 4135 4133; GX 4161 4132 1892; GX 4156 4131 1891; GX 4152 4151 4130; GX 4129 4130 5804;
GX 4124 4146 4123; GX 4122 4123 4121; GI 4121 4170; GX 4170 4166 5799; GA 1845 1886 1823; GX 1823 1825 4125;
GX 4125 4126 4169; GX 4169 4159 1890; GI 1892 5798; GI 1891 5803].
(** aes128_ks.txt:3504-3753 *)
Definition aes_ks_file_g14 : list gate := [
GI 1890 5802; GX 6486 5799 6614; GX 6482 5803 6610; GX 6488 4133 6616; GX 6483 5802 6611; GX 6484 5801 6612;
GX 6514 6610 6642; GX 6546 6642 6674; GX 6485 5800 6613; GX 6487 5798 6615; GX 6578 6674 6706; GX 6481 5804 6609;
GX 6513 6609 6641; GX 6545 6641 6673; GX 6577 6673 6705; GX 6515 6611 6643; GX 6547 6643 6675; GX 6579 6675 6707;
GX 6707 6705 4341; GX 6519 6615 6647; GX 6551 6647 6679; GX 6583 6679 6711; GX 6705 6711 1678; GX 6516 6612 6644;
GX 6548 6644 6676; GX 6580 6676 6708; GX 6708 6706 4343; GX 6708 6705 1677; GX 4343 4341 4309; GX 4343 6707 4308;
GX 6517 6613 6645; GX 6549 6645 6677; GX 6581 6677 6709; GX 6711 6709 4340; GX 4340 1677 1669; GX 4340 4309 1667;
GX 6518 6614 6646; GX 6550 6646 6678; GX 6582 6678 6710; GX 6705 6710 1676; GX 6710 4340 4342; GX 6706 4342 1666;
GX 6707 4342 1663; GX 6711 6710 4361; GX 1677 4361 1673; GX 6710 6708 1679; GX 4341 1679 1664; GX 6709 6710 4324;
GA 1673 1669 1662; GX 1662 4343 4348; GA 1678 1663 1659; GX 1659 4341 4347; GA 1677 1666 1656; GX 1656 4342 4344;
GX 4348 4344 4354; GA 1679 1664 1655; GX 1655 1656 4323; GX 4323 4324 4375; GX 4375 4347 4372; GA 1676 1667 1654;
GX 6520 6616 6648; GX 6552 6648 6680; GX 6584 6680 6712; GX 6712 1669 1668; GX 6712 6706 4349; GX 4349 4342 1665;
GX 6707 4349 1675; GX 6711 1675 1671; GX 4341 4349 1672; GX 4361 1672 1670; GX 6712 4308 1674; GA 1670 1668 1661;
GX 1655 1661 4353; GX 6705 4353 4368; GX 4368 4354 1653; GA 1674 6712 1660; GX 1654 1660 4352; GX 6707 4352 4367;
GX 4353 4352 4331; GX 4341 4331 1650; GA 1671 1675 1658; GX 1658 4372 1652; GA 1672 1665 1657; GX 1654 1657 4346;
GX 1655 4346 4366; GX 4347 4346 4332; GX 4344 4332 1651; GX 1658 4366 4322; GX 6711 4322 1645; GA 1653 1652 1649;
GX 1649 1651 1648; GX 1649 4367 4321; GX 4354 4321 1644; GA 1650 1648 1647; GX 1647 4354 4369; GX 4367 4369 1646;
GX 1659 1647 4316; GX 4348 4316 4312; GX 6705 4312 4315; GX 6707 4312 4311; GA 1644 1645 1643; GX 1643 1651 1642;
GX 1649 1643 1641; GX 1643 4366 4320; GX 1643 1660 4319; GX 4319 1657 4314; GX 4314 4315 1634; GA 1651 1641 1640;
GX 1640 1648 1638; GX 1640 1658 4351; GX 4351 4372 1632; GX 6711 4351 4359; GX 4359 4320 1639; GA 1646 1638 1637;
GX 1637 1650 1636; GX 1637 1661 4318; GX 4359 4318 4310; GX 4341 4310 4317; GX 4314 4317 1635; GX 1637 4369 4313;
GX 4368 4313 1633; GX 4310 4311 1631; GA 1632 1669 1630; GA 1639 1668 1629; GA 1642 6712 1628; GA 1633 1663 1627;
GX 1627 1630 4357; GI 4357 4328; GA 1636 1675 1626; GA 1646 1665 1625; GX 1625 1628 4364; GX 4364 4328 4339;
GA 1634 1666 1624; GX 1624 1630 4362; GX 1624 1627 4333; GA 1631 1664 1623; GX 1623 1626 4356; GX 1623 4362 4335;
GA 1635 1667 1622; GA 1632 1673 1621; GA 1639 1670 1620; GA 1642 1674 1619; GA 1633 1678 1618; GX 1618 1622 4358;
GX 4356 4358 4370; GX 1625 4370 4336; GX 4362 4358 4330; GA 1636 1671 1617; GA 1646 1672 1616; GX 1616 1628 4363;
GX 1619 4363 4326; GA 1634 1677 1615; GA 1631 1679 1614; GX 1614 1615 4345; GX 1620 4345 4350; GX 1621 4350 4355;
GX 1629 4355 4360; GX 1617 4345 4365; GX 1626 4360 4371; GX 4357 4371 5837; GX 4364 4371 5836; GX 1618 4365 4338;
GX 4338 4339 4337; GX 4365 4336 1682; GX 4360 4335 1681; GX 4356 4355 4334; GX 4333 4334 5840; GX 4328 4350 4327;
GX 4326 4327 4325; GI 4325 4374; GX 4374 4370 5835; GA 1635 1676 1613; GX 1613 1615 4329; GX 4329 4330 4373;
GX 4373 4363 1680; GI 1682 5834; GI 1681 5839; GI 1680 5838; GX 6620 5837 6748; GX 6624 4337 6752;
GX 6652 6748 6780; GX 6621 5836 6749; GX 6653 6749 6781; GX 6656 6752 6784; GX 6618 5839 6746; GX 6650 6746 6778;
GX 6619 5838 133; GI 133 6747; GX 6651 6747 6779; GX 6622 5835 6750; GX 6654 6750 6782; GX 6623 5834 6751;
GX 6655 6751 6783; GX 6686 6782 6814; GX 6718 6814 6846; GX 6682 6778 6810; GX 6714 6810 6842; GX 6683 6779 6811;
GX 6715 6811 6843; GX 6684 6780 6812; GX 6716 6812 6844; GX 6846 6844 1189; GX 6844 6842 4819; GX 4819 6843 4784;
GX 6685 6781 6813; GX 6717 6813 6845; GX 6845 6846 4800; GX 6687 6783 6815; GX 6688 6784 6816; GX 6720 6816 6848;
GX 6848 6842 4825; GX 6843 4825 1185; GX 6848 4784 1184; GA 1184 6848 1170; GX 6719 6815 6847; GX 6847 6845 4816;
GX 6847 6846 4837; GX 6847 1185 1181; GA 1181 1185 1168; GX 6846 4816 4818; GX 4825 4818 1175; GX 6843 4818 1173;
GX 6842 4818 1176; GX 6433 6529 6561; GX 6561 6567 1818; GX 6561 6566 1816; GX 6563 6561 4205; GX 4205 1819 1804;
GX 6564 6561 1817; GX 1817 4225 1813; GX 4205 4213 1812; GX 4225 1812 1810; GX 4204 1817 1809; GX 6568 1809 1808;
GX 4207 4205 4173; GX 4204 4173 1807; GA 1813 1809 1802; GX 1802 4207 4212; GA 1810 1808 1801; GA 1818 1803 1799;
GX 1799 4205 4211; GA 1812 1805 1797; GA 1817 1806 1796; GX 1796 4206 4208; GX 4212 4208 4218; GA 1819 1804 1795;
GX 1795 1801 4217; GX 6561 4217 4232; GX 4232 4218 1793; GX 1795 1796 4187].
(** aes128_ks.txt:3754-4003 *)
Definition aes_ks_file_g15 : list gate := [
GX 4187 4188 4239; GX 4239 4211 4236; GX 1798 4236 1792; GA 1816 1807 1794; GX 1794 1797 4210; GX 1794 1800 4216;
GX 1795 4210 4230; GX 6563 4216 4231; GX 4211 4210 4196; GX 4208 4196 1791; GX 4217 4216 4195; GX 4205 4195 1790;
GX 1798 4230 4186; GX 6567 4186 1785; GA 1793 1792 1789; GX 1789 1791 1788; GX 1789 4231 4185; GX 4218 4185 1784;
GA 1790 1788 1787; GX 1787 4218 4233; GX 4231 4233 1786; GX 1799 1787 4180; GX 4212 4180 4176; GX 6561 4176 4179;
GX 6563 4176 4175; GA 1784 1785 1783; GX 1783 1791 1782; GX 1789 1783 1781; GX 1783 4230 4184; GX 1783 1800 4183;
GX 4183 1797 4178; GX 4178 4179 1774; GA 1791 1781 1780; GX 1780 1788 1778; GX 1780 1798 4215; GX 4215 4236 1772;
GX 6567 4215 4223; GX 4223 4184 1779; GA 1786 1778 1777; GX 1777 1790 1776; GX 1777 1801 4182; GX 4223 4182 4174;
GX 4205 4174 4181; GX 4178 4181 1775; GX 1777 4233 4177; GX 4232 4177 1773; GX 4174 4175 1771; GA 1772 1809 1770;
GA 1779 1808 1769; GA 1782 6568 1768; GA 1773 1803 1767; GX 1767 1770 4221; GI 4221 4192; GA 1776 1815 1766;
GA 1786 1805 1765; GX 1765 1768 4228; GX 4228 4192 4203; GA 1774 1806 1764; GX 1764 1770 4226; GX 1764 1767 4197;
GA 1771 1804 1763; GX 1763 1766 4220; GX 1763 4226 4199; GA 1775 1807 1762; GA 1772 1813 1761; GA 1779 1810 1760;
GA 1782 1814 1759; GA 1773 1818 1758; GX 1758 1762 4222; GX 4220 4222 4234; GX 1765 4234 4200; GX 4226 4222 4194;
GA 1776 1811 1757; GA 1786 1812 1756; GX 1756 1768 4227; GX 1759 4227 4190; GA 1774 1817 1755; GA 1771 1819 1754;
GX 1754 1755 4209; GX 1760 4209 4214; GX 1761 4214 4219; GX 1769 4219 4224; GX 1757 4209 4229; GX 1766 4224 4235;
GX 4221 4235 5794; GX 4228 4235 5793; GX 1758 4229 4202; GX 4202 4203 4201; GX 4229 4200 1822; GX 4224 4199 1821;
GX 4220 4219 4198; GX 4197 4198 5797; GX 4192 4214 4191; GX 4190 4191 4189; GI 4189 4238; GX 4238 4234 5792;
GA 1775 1816 1753; GX 1753 1755 4193; GX 4193 4194 4237; GX 4237 4227 1820; GI 1822 5791; GI 1821 5796;
GI 1820 5795; GX 6561 6657 6689; GX 6689 6695 1538; GX 6689 6694 1536; GX 6691 6689 4477; GX 4477 1539 1524;
GX 6692 6689 1537; GX 1537 4497 1533; GX 4476 1537 1529; GX 6696 1529 1528; GA 1533 1529 1522; GA 1538 1523 1519;
GX 1519 4477 4483; GA 1539 1524 1515; GX 6473 5797 6601; GX 6478 5792 6606; GX 6510 6606 6638; GX 6542 6638 6670;
GX 6574 6670 6702; GX 6474 5796 6602; GX 6480 4201 6608; GX 6475 5795 6603; GX 6476 5794 6604; GX 6505 6601 6633;
GX 6537 6633 6665; GX 6569 6665 6697; GX 6697 6702 1606; GX 6506 6602 6634; GX 6538 6634 6666; GX 6570 6666 6698;
GX 6477 5793 6605; GX 6479 5791 6607; GX 6511 6607 6639; GX 6543 6639 6671; GX 6575 6671 6703; GX 6697 6703 1608;
GX 6703 6702 4429; GX 6509 6605 6637; GX 6541 6637 6669; GX 6573 6669 6701; GX 6703 6701 4408; GX 6702 4408 4410;
GX 6698 4410 1596; GX 6701 6702 4392; GX 6508 6604 6636; GX 6540 6636 6668; GX 6572 6668 6700; GX 6700 6698 4411;
GX 6700 6697 1607; GX 1607 4429 1603; GX 6702 6700 1609; GX 4408 1607 1599; GA 1603 1599 1592; GX 1592 4411 4416;
GA 1607 1596 1586; GX 1586 4410 4412; GX 4416 4412 4422; GX 6512 6608 6640; GX 6544 6640 6672; GX 6576 6672 6704;
GX 6704 1599 1598; GX 6704 6698 4417; GX 4417 4410 1595; GX 6489 5811 6617; GX 6617 5840 6745; GX 6521 6617 6649;
GX 6649 6745 6777; GX 6553 6649 6681; GX 6585 6681 6713; GX 6716 6713 1467; GX 4544 1467 1459; GA 1467 1456 1446;
GX 6713 6719 1468; GA 1468 1453 1449; GX 1467 4565 1463; GA 1463 1459 1452; GX 1452 4547 4552; GX 6713 6718 1466;
GX 6720 1459 1458; GX 1446 4546 4548; GX 4552 4548 4558; GX 6681 6777 6809; GX 6713 6809 6841; GX 6843 6841 4817;
GX 4819 4817 4785; GX 4817 4825 1182; GA 1182 1175 1167; GX 4816 4785 1177; GX 4837 1182 1180; GX 6841 6847 1188;
GA 1188 1173 1169; GX 1169 4817 4823; GX 6841 6846 1186; GA 1186 1177 1164; GX 1164 1170 4828; GX 1164 1167 4822;
GX 6843 4828 4843; GX 4823 4822 4808; GX 4817 1189 1174; GA 1189 1174 1165; GX 1165 4822 4842; GX 1168 4842 4798;
GX 6847 4798 1155; GX 6844 6841 1187; GX 4816 1187 1179; GA 1187 1176 1166; GX 1165 1166 4799; GX 4799 4800 4851;
GX 4851 4823 4848; GX 1168 4848 1162; GX 6848 1179 1178; GA 1180 1178 1171; GX 1166 4818 4820; GX 4820 4808 1161;
GX 1187 4837 1183; GA 1183 1179 1172; GX 1172 4819 4824; GX 4824 4820 4830; GX 1165 1171 4829; GX 6841 4829 4844;
GX 4829 4828 4807; GX 4817 4807 1160; GX 4844 4830 1163; GA 1163 1162 1159; GX 1159 4843 4797; GX 1159 1161 1158;
GA 1160 1158 1157; GX 1169 1157 4792; GX 4824 4792 4788; GX 1157 4830 4845; GX 4830 4797 1154; GA 1154 1155 1153;
GX 1153 4842 4796; GX 1153 1170 4795; GX 4795 1167 4790; GX 6841 4788 4791; GX 4790 4791 1144; GA 1144 1176 1134;
GX 6843 4788 4787; GA 1144 1187 1125; GX 4843 4845 1156; GA 1156 1182 1126; GA 1156 1175 1135; GX 1153 1161 1152;
GA 1152 6848 1138; GA 1152 1184 1129; GX 1159 1153 1151; GA 1161 1151 1150].
(** aes128_ks.txt:4004-4253 *)
Definition aes_ks_file_g16 : list gate := [
GX 1150 1168 4827; GX 6847 4827 4835; GX 4835 4796 1149; GA 1149 1178 1139; GA 1149 1180 1130; GX 1150 1158 1148;
GA 1156 1148 1147; GX 1147 1171 4794; GX 4835 4794 4786; GX 4786 4787 1141; GX 4817 4786 4793; GX 4790 4793 1145;
GA 1145 1186 1123; GX 1123 1125 4805; GX 1147 4845 4789; GX 4844 4789 1143; GA 1143 1173 1137; GX 1134 1137 4809;
GA 1141 1174 1133; GA 1145 1177 1132; GA 1143 1188 1128; GX 1128 1132 4834; GA 1141 1189 1124; GX 1124 1125 4821;
GX 1130 4821 4826; GX 4827 4848 1142; GA 1142 1179 1140; GX 1137 1140 4833; GA 1142 1183 1131; GX 1131 4826 4831;
GX 1139 4831 4836; GI 4833 4804; GX 4804 4826 4803; GX 1147 1160 1146; GA 1146 1181 1127; GA 1146 1185 1136;
GX 1133 1136 4832; GX 4832 4831 4810; GX 4809 4810 5847; GX 4832 4834 4846; GX 1135 4846 4812; GX 1126 1138 4839;
GX 1129 4839 4802; GX 4802 4803 4801; GI 4801 4850; GX 4850 4846 5842; GX 1127 4821 4841; GX 4841 4812 1192;
GI 1192 5841; GX 1128 4841 4814; GX 1134 1140 4838; GX 1133 4838 4811; GX 4836 4811 1191; GX 4838 4834 4806;
GX 4805 4806 4849; GX 4849 4839 1190; GI 1190 5845; GI 1191 5846; GX 1135 1138 4840; GX 1136 4836 4847;
GX 4840 4847 5843; GX 4833 4847 5844; GX 4840 4804 4815; GX 4814 4815 4813; GX 6715 6713 4545; GX 4545 1469 1454;
GX 1449 4545 4551; GA 1469 1454 1445; GX 1445 1446 4527; GX 4527 4528 4579; GX 4545 4553 1462; GX 4565 1462 1460;
GA 1460 1458 1451; GA 1462 1455 1447; GX 1445 1451 4557; GX 6713 4557 4572; GX 4572 4558 1443; GX 4547 4545 4513;
GX 4544 4513 1457; GA 1466 1457 1444; GX 1444 1450 4556; GX 6715 4556 4571; GX 1444 1447 4550; GX 1445 4550 4570;
GX 1448 4570 4526; GX 6719 4526 1435; GX 4551 4550 4536; GX 4548 4536 1441; GX 4557 4556 4535; GX 4545 4535 1440;
GX 4579 4551 4576; GX 1448 4576 1442; GA 1443 1442 1439; GX 1439 4571 4525; GX 1439 1441 1438; GA 1440 1438 1437;
GX 1437 4558 4573; GX 4571 4573 1436; GA 1436 1455 1415; GA 1436 1462 1406; GX 4558 4525 1434; GA 1434 1435 1433;
GX 1439 1433 1431; GX 1433 1450 4523; GX 4523 1447 4518; GA 1441 1431 1430; GX 1433 4570 4524; GX 1449 1437 4520;
GX 4552 4520 4516; GX 6715 4516 4515; GX 1430 1448 4555; GX 6713 4516 4519; GX 4518 4519 1424; GA 1424 1456 1414;
GX 4555 4576 1422; GA 1422 1459 1420; GX 1414 1420 4566; GA 1424 1467 1405; GA 1422 1463 1411; GX 6719 4555 4563;
GX 4563 4524 1429; GA 1429 1458 1419; GA 1429 1460 1410; GX 1433 1441 1432; GA 1432 1464 1409; GA 1432 6720 1418;
GX 1406 1418 4567; GX 1409 4567 4530; GX 1415 1418 4568; GX 1430 1438 1428; GA 1436 1428 1427; GX 1427 1440 1426;
GA 1426 1461 1407; GX 1427 1451 4522; GX 1427 4573 4517; GX 4563 4522 4514; GX 4545 4514 4521; GX 4518 4521 1425;
GA 1425 1457 1412; GX 4514 4515 1421; GA 1421 1469 1404; GA 1426 1465 1416; GX 1404 1405 4549; GX 1410 4549 4554;
GX 1411 4554 4559; GX 1419 4559 4564; GX 1416 4564 4575; GX 4568 4575 5814; GA 1421 1454 1413; GX 1413 4566 4539;
GX 4564 4539 1471; GI 1471 5817; GX 1413 1416 4560; GX 4560 4559 4538; GA 1425 1466 1403; GX 1403 1405 4533;
GX 1407 4549 4569; GX 6597 5814 6725; GX 4572 4517 1423; GA 1423 1453 1417; GX 1417 1420 4561; GI 4561 4532;
GX 4532 4554 4531; GX 4530 4531 4529; GA 1423 1468 1408; GX 1408 4569 4542; GX 1414 1417 4537; GX 4537 4538 5818;
GX 4561 4575 5815; GX 6596 5815 6724; GX 6593 5818 6721; GX 6628 6724 6756; GX 6625 6721 6753; GX 6724 5844 6852;
GX 6725 5843 6853; GX 6629 6725 6757; GX 6661 6757 6789; GX 6657 6753 6785; GX 6689 6785 6817; GX 1408 1412 4562;
GX 4560 4562 4574; GX 1415 4574 4540; GX 4569 4540 1472; GI 1472 5812; GX 6599 5812 6727; GX 6727 5841 6855;
GX 4566 4562 4534; GX 6631 6727 6759; GX 6663 6759 6791; GX 6660 6756 6788; GX 6692 6788 6820; GX 6820 6817 1257;
GX 6693 6789 6821; GX 6695 6791 6823; GX 6817 6823 1258; GX 6823 6821 4748; GX 4748 1257 1249; GX 6721 5847 6849;
GI 4529 4578; GX 4578 4574 5813; GX 6598 5813 6726; GX 6630 6726 6758; GX 6726 5842 6854; GX 6662 6758 6790;
GX 6694 6790 6822; GX 6821 6822 4732; GX 6822 4748 4750; GX 6817 6822 1256; GX 6823 6822 4769; GX 1257 4769 1253;
GA 1253 1249 1242; GX 6822 6820 1259; GX 4533 4534 4577; GX 4577 4567 1470; GI 1470 5816; GX 6595 5816 6723;
GX 6723 5845 6851; GX 6627 6723 6755; GX 6659 6755 6787; GX 6691 6787 6819; GX 6819 6817 4749; GX 6819 4750 1243;
GA 1258 1243 1239; GX 1239 4749 4755; GX 4749 1259 1244; GA 1259 1244 1235; GX 4568 4532 4543; GX 4542 4543 4541;
GX 6600 4541 6728; GX 6728 4813 6856; GX 6632 6728 6760; GX 6664 6760 6792; GX 6696 6792 6824; GX 6824 1249 1248;
GX 6466 5789 6594; GX 6594 5817 6722; GX 6498 6594 6626; GX 6530 6626 6658; GX 6562 6658 6690; GX 6690 4478 1526;
GX 6696 6690 4485; GX 4477 4485 1532; GX 4497 1532 1530; GA 1537 1526 1516; GX 1515 1516 4459; GX 1516 4478 4480;
GX 4459 4460 4511; GX 4511 4483 4508; GA 1530 1528 1521; GX 1515 1521 4489].
(** aes128_ks.txt:4254-4503 *)
Definition aes_ks_file_g17 : list gate := [
GX 6689 4489 4504; GX 6691 4485 1535; GX 6626 6722 6754; GX 6658 6754 6786; GX 6690 6786 6818; GX 6820 6818 4751;
GX 4751 4749 4717; GX 4751 6819 4716; GX 4748 4717 1247; GX 6824 4716 1254; GA 1254 6824 1240; GA 1256 1247 1234;
GX 1242 4751 4756; GX 6818 4750 1246; GA 1257 1246 1236; GX 1235 1236 4731; GX 4731 4732 4783; GX 1236 4750 4752;
GX 6824 6818 4757; GX 1234 1240 4760; GX 4757 4750 1245; GX 4756 4752 4762; GX 6819 4757 1255; GX 6823 1255 1251;
GA 1251 1255 1238; GX 4749 4757 1252; GA 1252 1245 1237; GX 4769 1252 1250; GA 1250 1248 1241; GX 1235 1241 4761;
GX 1234 1237 4754; GX 4755 4754 4740; GX 6817 4761 4776; GX 4776 4762 1233; GX 1235 4754 4774; GX 1238 4774 4730;
GX 6823 4730 1225; GX 6819 4760 4775; GX 4761 4760 4739; GX 4749 4739 1230; GX 4783 4755 4780; GX 1238 4780 1232;
GA 1233 1232 1229; GX 1229 4775 4729; GX 4762 4729 1224; GA 1224 1225 1223; GX 1223 1240 4727; GX 1223 4774 4728;
GX 4727 1237 4722; GX 1229 1223 1221; GX 4752 4740 1231; GA 1231 1221 1220; GX 1220 1238 4759; GX 1223 1231 1222;
GA 1222 6824 1208; GA 1222 1254 1199; GX 4759 4780 1212; GA 1212 1249 1210; GA 1212 1253 1201; GX 6823 4759 4767;
GX 4767 4728 1219; GA 1219 1250 1200; GA 1219 1248 1209; GX 1229 1231 1228; GA 1230 1228 1227; GX 1239 1227 4724;
GX 4756 4724 4720; GX 6817 4720 4723; GX 4722 4723 1214; GA 1214 1246 1204; GA 1214 1257 1195; GX 1220 1228 1218;
GX 6819 4720 4719; GX 1204 1210 4770; GX 1227 4762 4777; GX 4775 4777 1226; GA 1226 1252 1196; GA 1226 1245 1205;
GA 1226 1218 1217; GX 1217 1241 4726; GX 4767 4726 4718; GX 4749 4718 4725; GX 4722 4725 1215; GA 1215 1256 1193;
GX 1193 1195 4737; GX 1217 4777 4721; GA 1215 1247 1202; GX 1217 1230 1216; GA 1216 1251 1197; GA 1216 1255 1206;
GX 1196 1208 4771; GX 1205 1208 4772; GX 4718 4719 1211; GA 1211 1244 1203; GA 1211 1259 1194; GX 1194 1195 4753;
GX 1200 4753 4758; GX 1201 4758 4763; GX 1203 1206 4764; GX 4764 4763 4742; GX 1209 4763 4768; GX 1197 4753 4773;
GX 1206 4768 4779; GX 4772 4779 5850; GX 1203 4770 4743; GX 4768 4743 1261; GI 1261 5853; GX 1199 4771 4734;
GX 4776 4721 1213; GA 1213 1243 1207; GA 1213 1258 1198; GX 1207 1210 4765; GX 4765 4779 5851; GX 1198 1202 4766;
GX 4770 4766 4738; GX 4737 4738 4781; GX 4781 4771 1260; GI 1260 5852; GX 1198 4773 4746; GX 1204 1207 4741;
GX 4741 4742 5854; GX 4764 4766 4778; GX 1205 4778 4744; GI 4765 4736; GX 4736 4758 4735; GX 4772 4736 4747;
GX 4734 4735 4733; GI 4733 4782; GX 4782 4778 5849; GX 4746 4747 4745; GX 4773 4744 1262; GI 1262 5848;
GX 6722 5846 6850; GX 6695 1535 1531; GA 1531 1535 1518; GX 1518 4508 1512; GX 4485 4478 1525; GA 1532 1525 1517;
GX 6692 6690 4479; GX 4479 6691 4444; GX 4479 4477 4445; GX 1522 4479 4484; GX 4484 4480 4490; GX 4504 4490 1513;
GX 6696 4444 1534; GA 1534 6696 1520; GA 1513 1512 1509; GX 4476 4445 1527; GA 1536 1527 1514; GX 1514 1517 4482;
GX 1514 1520 4488; GX 4483 4482 4468; GX 1515 4482 4502; GX 4480 4468 1511; GX 1509 1511 1508; GX 4489 4488 4467;
GX 4477 4467 1510; GA 1510 1508 1507; GX 1507 4490 4505; GX 1519 1507 4452; GX 4484 4452 4448; GX 6689 4448 4451;
GX 6691 4448 4447; GX 1518 4502 4458; GX 6695 4458 1505; GX 6691 4488 4503; GX 4503 4505 1506; GX 1509 4503 4457;
GX 4490 4457 1504; GA 1506 1525 1485; GA 1504 1505 1503; GX 1509 1503 1501; GX 1503 4502 4456; GA 1511 1501 1500;
GX 1500 1508 1498; GA 1506 1498 1497; GX 1497 1510 1496; GA 1496 1535 1486; GX 1497 4505 4449; GX 4504 4449 1493;
GA 1493 1523 1487; GX 1500 1518 4487; GX 6695 4487 4495; GX 4487 4508 1492; GA 1492 1529 1490; GX 4495 4456 1499;
GA 1499 1528 1489; GA 1492 1533 1481; GA 1499 1530 1480; GA 1493 1538 1478; GA 1496 1531 1477; GA 1506 1532 1476;
GX 1497 1521 4454; GX 4495 4454 4446; GX 4477 4446 4453; GX 4446 4447 1491; GA 1491 1524 1483; GX 1483 1486 4492;
GA 1491 1539 1474; GX 1487 1490 4493; GI 4493 4464; GX 1503 1520 4455; GX 4455 1517 4450; GX 4450 4451 1494;
GX 4450 4453 1495; GA 1494 1526 1484; GX 1484 1490 4498; GX 1483 4498 4471; GX 1484 1487 4469; GA 1495 1527 1482;
GX 1478 1482 4494; GX 4492 4494 4506; GX 4498 4494 4466; GX 1485 4506 4472; GA 1494 1537 1475; GA 1495 1536 1473;
GX 1473 1475 4465; GX 4465 4466 4509; GX 1503 1511 1502; GA 1502 6696 1488; GX 1476 1488 4499; GX 4509 4499 1540;
GX 1485 1488 4500; GI 1540 5823; GX 4500 4464 4475; GX 6603 5823 6731; GA 1502 1534 1479; GX 1479 4499 4462;
GX 6731 5852 6859; GX 1474 1475 4481; GX 1480 4481 4486; GX 1481 4486 4491; GX 1489 4491 4496; GX 1486 4496 4507;
GX 4496 4471 1541; GX 4492 4491 4470; GX 4469 4470 5826; GX 4500 4507 5821; GX 6605 5821 6733; GX 4464 4486 4463;
GX 1477 4481 4501; GX 4501 4472 1542; GX 1478 4501 4474; GX 4474 4475 4473; GX 6608 4473 6736; GX 4462 4463 4461;
GX 6601 5826 6729; GX 6633 6729 6761; GX 6637 6733 6765; GI 1541 5824].
(** aes128_ks.txt:4504-4753 *)
Definition aes_ks_file_g18 : list gate := [
GX 6602 5824 6730; GX 6634 6730 6762; GX 6640 6736 6768; GX 6666 6762 6794; GX 6729 5854 6857; GX 6698 6794 6826;
GX 6669 6765 6797; GX 6701 6797 6829; GI 4461 4510; GX 6730 5853 6858; GX 6672 6768 6800; GX 6736 4745 6864;
GX 6704 6800 6832; GX 6832 6826 4689; GI 1542 5819; GX 6607 5819 6735; GX 6639 6735 6767; GX 6735 5848 6863;
GX 6671 6767 6799; GX 6703 6799 6831; GX 6831 6829 4680; GX 6665 6761 6793; GX 6697 6793 6825; GX 6825 6831 1328;
GX 4493 4507 5822; GX 6604 5822 6732; GX 6636 6732 6764; GX 6668 6764 6796; GX 6732 5851 6860; GX 6700 6796 6828;
GX 6828 6826 4683; GX 6828 6825 1327; GX 4680 1327 1319; GX 6832 1319 1318; GX 6733 5850 6861; GX 6761 6857 6889;
GX 6762 6858 6890; GX 4510 4506 5820; GX 6606 5820 6734; GX 6638 6734 6766; GX 6670 6766 6798; GX 6702 6798 6830;
GX 6830 4680 4682; GX 4689 4682 1315; GX 6831 6830 4701; GX 1327 4701 1323; GA 1323 1319 1312; GX 1312 4683 4688;
GX 6826 4682 1316; GA 1327 1316 1306; GX 1306 4682 4684; GX 4688 4684 4694; GX 6829 6830 4664; GX 6825 6830 1326;
GX 6830 6828 1329; GX 6734 5849 6862; GX 6507 6603 6635; GX 6539 6635 6667; GX 6571 6667 6699; GX 6699 6697 4409;
GX 4409 1609 1594; GX 6699 4417 1605; GX 6703 1605 1601; GA 1609 1594 1585; GX 1585 1586 4391; GX 4391 4392 4443;
GX 6635 6731 6763; GX 4411 4409 4377; GX 4408 4377 1597; GX 4411 6699 4376; GX 6704 4376 1604; GA 1604 6704 1590;
GA 1606 1597 1584; GX 1584 1590 4420; GX 6699 4420 4435; GA 1601 1605 1588; GX 6667 6763 6795; GX 6699 4410 1593;
GA 1608 1593 1589; GX 1589 4409 4415; GX 4443 4415 4440; GX 6699 6795 6827; GX 6827 6825 4681; GX 4681 1329 1314;
GX 4683 6827 4648; GX 6832 4648 1324; GX 4681 4689 1322; GX 4701 1322 1320; GA 1320 1318 1311; GX 6827 4689 1325;
GX 6831 1325 1321; GA 1321 1325 1308; GX 6827 4682 1313; GA 1328 1313 1309; GX 1309 4681 4687; GA 1322 1315 1307;
GX 1588 4440 1582; GX 4683 4681 4649; GX 4680 4649 1317; GA 1326 1317 1304; GX 1304 1307 4686; GX 4687 4686 4672;
GX 4684 4672 1301; GA 1324 6832 1310; GX 1304 1310 4692; GX 6827 4692 4707; GX 6763 6859 6891; GA 1329 1314 1305;
GX 1305 4686 4706; GX 1305 1306 4663; GX 1308 4706 4662; GX 1305 1311 4693; GX 4693 4692 4671; GX 4681 4671 1300;
GX 6825 4693 4708; GX 4708 4694 1303; GX 4663 4664 4715; GX 4715 4687 4712; GX 6831 4662 1295; GX 1308 4712 1302;
GA 1303 1302 1299; GX 1299 1301 1298; GX 1299 4707 4661; GX 4694 4661 1294; GA 1300 1298 1297; GX 1309 1297 4656;
GX 4688 4656 4652; GX 6827 4652 4651; GX 6825 4652 4655; GX 1297 4694 4709; GX 4707 4709 1296; GA 1296 1322 1266;
GA 1296 1315 1275; GA 1294 1295 1293; GX 1299 1293 1291; GX 1293 1301 1292; GA 1292 1324 1269; GA 1292 6832 1278;
GX 1275 1278 4704; GX 1266 1278 4703; GX 1293 4706 4660; GX 1269 4703 4666; GX 1293 1310 4659; GX 4659 1307 4654;
GX 4654 4655 1284; GA 1284 1316 1274; GA 1284 1327 1265; GA 1301 1291 1290; GX 1290 1298 1288; GX 1290 1308 4691;
GX 6831 4691 4699; GX 4691 4712 1282; GA 1282 1323 1271; GA 1282 1319 1280; GA 1296 1288 1287; GX 1287 1300 1286;
GA 1286 1325 1276; GA 1286 1321 1267; GX 1287 1311 4658; GX 4699 4660 1289; GA 1289 1320 1270; GX 1274 1280 4702;
GX 4699 4658 4650; GX 4681 4650 4657; GX 4654 4657 1285; GA 1285 1317 1272; GA 1285 1326 1263; GX 1263 1265 4669;
GX 1287 4709 4653; GX 4708 4653 1283; GA 1283 1328 1268; GX 1268 1272 4698; GX 4702 4698 4670; GX 4669 4670 4713;
GX 4713 4703 1330; GI 1330 5859; GA 1283 1313 1277; GX 1277 1280 4697; GI 4697 4668; GX 4704 4668 4679;
GX 4650 4651 1281; GA 1281 1329 1264; GX 1264 1265 4685; GX 1267 4685 4705; GX 1268 4705 4678; GX 4678 4679 4677;
GA 1281 1314 1273; GX 1273 4702 4675; GX 1273 1276 4696; GX 4696 4698 4710; GX 1270 4685 4690; GX 1271 4690 4695;
GX 4696 4695 4674; GX 4668 4690 4667; GX 4666 4667 4665; GI 4665 4714; GX 4714 4710 5856; GX 1275 4710 4676;
GX 4705 4676 1332; GI 1332 5855; GX 1274 1277 4673; GX 4673 4674 5861; GA 1289 1318 1279; GX 1279 4695 4700;
GX 4700 4675 1331; GI 1331 5860; GX 1276 4700 4711; GX 4697 4711 5858; GX 4704 4711 5857; GX 4409 4417 1602;
GA 1602 1595 1587; GX 1584 1587 4414; GX 4415 4414 4400; GX 4412 4400 1581; GX 4429 1602 1600; GA 1600 1598 1591;
GX 1585 1591 4421; GX 6697 4421 4436; GX 4436 4422 1583; GA 1583 1582 1579; GX 1579 1581 1578; GX 1579 4435 4389;
GX 4422 4389 1574; GX 1585 4414 4434; GX 1588 4434 4390; GX 6703 4390 1575; GA 1574 1575 1573; GX 1573 4434 4388;
GX 1579 1573 1571; GA 1581 1571 1570; GX 1570 1588 4419; GX 6703 4419 4427; GX 4427 4388 1569; GA 1569 1600 1550;
GA 1569 1598 1559; GX 1570 1578 1568; GX 1573 1590 4387; GX 4387 1587 4382; GX 1573 1581 1572; GA 1572 6704 1558;
GA 1572 1604 1549; GX 4419 4440 1562; GA 1562 1603 1551; GA 1562 1599 1560; GX 4421 4420 4399; GX 4409 4399 1580;
GA 1580 1578 1577; GX 1589 1577 4384; GX 4416 4384 4380; GX 6697 4380 4383].
(** aes128_ks.txt:4754-5003 *)
Definition aes_ks_file_g19 : list gate := [
GX 4382 4383 1564; GA 1564 1607 1545; GX 1577 4422 4437; GX 6699 4380 4379; GA 1564 1596 1554; GX 1554 1560 4430;
GX 4435 4437 1576; GA 1576 1568 1567; GA 1576 1602 1546; GX 1567 1591 4386; GX 4427 4386 4378; GX 1567 4437 4381;
GX 4409 4378 4385; GX 4382 4385 1565; GA 1565 1606 1543; GX 4378 4379 1561; GA 1561 1609 1544; GX 1544 1545 4413;
GX 1550 4413 4418; GX 1551 4418 4423; GX 1559 4423 4428; GA 1561 1594 1553; GX 1553 4430 4403; GX 4428 4403 1611;
GI 1611 5832; GX 6610 5832 6738; GX 6642 6738 6770; GX 4436 4381 1563; GA 1563 1593 1557; GX 1557 1560 4425;
GI 4425 4396; GX 4396 4418 4395; GA 1563 1608 1548; GX 1554 1557 4401; GA 1565 1597 1552; GX 1548 1552 4426;
GX 4430 4426 4398; GX 6674 6770 6802; GX 6738 5860 6866; GX 1546 1558 4431; GX 1549 4431 4394; GX 4394 4395 4393;
GX 6770 6866 6898; GX 6706 6802 6834; GX 1543 1545 4397; GX 4397 4398 4441; GX 4441 4431 1610; GI 1610 5831;
GX 6611 5831 6739; GX 6643 6739 6771; GX 6675 6771 6803; GX 6739 5859 6867; GX 6771 6867 6899; GX 6707 6803 6835;
GI 4393 4442; GX 1567 1580 1566; GA 1566 1605 1556; GX 1553 1556 4424; GX 1556 4428 4439; GX 4425 4439 5830;
GX 6612 5830 6740; GX 6644 6740 6772; GX 6676 6772 6804; GX 4424 4423 4402; GX 4424 4426 4438; GX 4401 4402 5833;
GX 6609 5833 6737; GX 6641 6737 6769; GX 4442 4438 5828; GX 6614 5828 6742; GX 6646 6742 6774; GX 6678 6774 6806;
GX 6708 6804 6836; GX 6836 6834 4615; GX 4615 6835 4580; GX 6673 6769 6801; GX 6705 6801 6833; GX 6836 6833 1397;
GX 6835 6833 4613; GX 4615 4613 4581; GX 6710 6806 6838; GX 6833 6838 1396; GX 6838 6836 1399; GX 4613 1399 1384;
GA 1399 1384 1375; GX 6737 5861 6865; GX 6769 6865 6897; GX 6740 5858 6868; GX 6772 6868 6900; GX 6742 5856 6870;
GX 6774 6870 6902; GA 1566 1601 1547; GX 1547 4413 4433; GX 1548 4433 4406; GA 1576 1595 1555; GX 1555 4438 4404;
GX 4433 4404 1612; GI 1612 5827; GX 6615 5827 6743; GX 6647 6743 6775; GX 6679 6775 6807; GX 6711 6807 6839;
GX 6839 6838 4633; GX 1397 4633 1393; GX 1555 1558 4432; GX 4432 4396 4407; GX 4406 4407 4405; GX 6616 4405 6744;
GX 6648 6744 6776; GX 6680 6776 6808; GX 6712 6808 6840; GX 6840 6834 4621; GX 4613 4621 1392; GX 4633 1392 1390;
GX 4432 4439 5829; GX 6613 5829 6741; GX 6645 6741 6773; GX 6677 6773 6805; GX 6835 4621 1395; GX 6839 1395 1391;
GX 6709 6805 6837; GX 6837 6838 4596; GX 6839 6837 4612; GX 4612 4581 1387; GX 4612 1397 1389; GA 1396 1387 1374;
GA 1393 1389 1382; GX 6840 1389 1388; GA 1390 1388 1381; GX 1375 1381 4625; GX 6833 4625 4640; GX 6838 4612 4614;
GX 6834 4614 1386; GA 1397 1386 1376; GX 4621 4614 1385; GX 1376 4614 4616; GX 1375 1376 4595; GX 1382 4615 4620;
GX 4620 4616 4626; GX 4640 4626 1373; GX 4595 4596 4647; GA 1391 1395 1378; GA 1392 1385 1377; GX 1374 1377 4618;
GX 1375 4618 4638; GX 1378 4638 4594; GX 6839 4594 1365; GX 6741 5857 6869; GX 6743 5855 6871; GX 6775 6871 6903;
GX 6744 4677 6872; GX 6776 6872 6904; GX 6773 6869 6901; GX 6840 4580 1394; GA 1394 6840 1380; GX 1374 1380 4624;
GX 4625 4624 4603; GX 4613 4603 1370; GX 6833 6839 1398; GX 6835 4624 4639; GX 6835 4614 1383; GA 1398 1383 1379;
GX 1379 4613 4619; GX 4619 4618 4604; GX 4616 4604 1371; GX 4647 4619 4644; GX 1378 4644 1372; GA 1373 1372 1369;
GX 1369 4639 4593; GX 4626 4593 1364; GA 1364 1365 1363; GX 1369 1363 1361; GA 1371 1361 1360; GX 1363 4638 4592;
GX 1363 1371 1362; GA 1362 6840 1348; GX 1360 1378 4623; GX 4623 4644 1352; GA 1352 1393 1341; GA 1352 1389 1350;
GA 1362 1394 1339; GX 1363 1380 4591; GX 4591 1377 4586; GX 1369 1371 1368; GA 1370 1368 1367; GX 1367 4626 4641;
GX 1360 1368 1358; GX 1379 1367 4588; GX 4639 4641 1366; GA 1366 1392 1336; GA 1366 1358 1357; GX 1357 1381 4590;
GX 1336 1348 4635; GA 1366 1385 1345; GX 1357 1370 1356; GA 1356 1391 1337; GA 1356 1395 1346; GX 1345 1348 4636;
GX 4620 4588 4584; GX 6833 4584 4587; GX 6835 4584 4583; GX 4586 4587 1354; GA 1354 1397 1335; GA 1354 1386 1344;
GX 1344 1350 4634; GX 1339 4635 4598; GX 1357 4641 4585; GX 4640 4585 1353; GA 1353 1383 1347; GX 1344 1347 4605;
GA 1353 1398 1338; GX 1347 1350 4629; GI 4629 4600; GX 4636 4600 4611; GX 6839 4623 4631; GX 4631 4590 4582;
GX 4582 4583 1351; GA 1351 1399 1334; GX 4613 4582 4589; GX 4586 4589 1355; GA 1355 1387 1342; GX 1338 1342 4630;
GX 1334 1335 4617; GX 4634 4630 4602; GX 4631 4592 1359; GA 1359 1390 1340; GA 1359 1388 1349; GA 1351 1384 1343;
GX 1343 1346 4628; GX 4628 4630 4642; GX 1345 4642 4608; GX 1343 4634 4607; GX 1337 4617 4637; GX 4637 4608 1402;
GX 1338 4637 4610; GX 4610 4611 4609; GX 6752 4609 6880; GX 6784 6880 6912; GI 1402 5862; GX 6751 5862 6879;
GX 6783 6879 6911; GA 1355 1396 1333; GX 1333 1335 4601; GX 4601 4602 4645; GX 4645 4635 1400; GI 1400 5866;
GX 6747 5866 6875; GX 6779 6875 6907; GX 1340 4617 4622; GX 1341 4622 4627].
(** aes128_ks.txt:5004-5253 *)
Definition aes_ks_file_g20 : list gate := [
GX 1349 4627 4632; GX 4600 4622 4599; GX 4598 4599 4597; GI 4597 4646; GX 4646 4642 5863; GX 4632 4607 1401;
GI 1401 5867; GX 4628 4627 4606; GX 4605 4606 5868; GX 6745 5868 6873; GX 6777 6873 6905; GX 1346 4632 4643;
GX 4629 4643 5865; GX 6748 5865 6876; GX 6780 6876 6908; GX 6746 5867 134; GI 134 6874; GX 6778 6874 6906;
GX 6750 5863 6878; GX 6782 6878 6910; GX 4636 4643 5864; GX 6749 5864 6877; GX 6781 6877 6909; GX 6753 6849 6881;
GX 6760 6856 6888; GX 6764 6860 6892; GX 6754 6850 6882; GX 6792 6888 6920; GX 6765 6861 6893; GX 6812 6908 6940;
GX 6814 6910 6942; GX 6816 6912 6944; GX 6810 6906 6938; GX 6757 6853 6885; GX 6766 6862 6894; GX 6767 6863 6895;
GX 6768 6864 6896; GX 6755 6851 6883; GX 6799 6895 6927; GX 6842 6938 6970; GX 6795 6891 6923; GX 6807 6903 6935;
GX 6756 6852 6884; GX 6788 6884 6916; GX 6824 6920 6952; GX 6758 6854 6886; GX 6786 6882 6914; GX 6800 6896 6928;
GX 6832 6928 6960; GX 6759 6855 6887; GX 6809 6905 6937; GX 6844 6940 6972; GX 6972 6970 5091; GX 6811 6907 6939;
GX 6843 6939 6971; GX 5091 6971 5056; GX 6813 6909 6941; GX 6845 6941 6973; GX 6815 6911 6943; GX 6787 6883 6915;
GX 6791 6887 6919; GX 6823 6919 6951; GX 6846 6942 6974; GX 6973 6974 5072; GX 6974 6972 909; GX 6847 6943 6975;
GX 6975 6973 5088; GX 6974 5088 5090; GX 6970 5090 896; GX 6971 5090 893; GX 6975 6974 5109; GX 6848 6944 6976;
GX 6976 6970 5097; GX 5097 5090 895; GX 6976 5056 904; GA 904 6976 890; GX 6971 5097 905; GX 6975 905 901;
GA 901 905 888; GX 6789 6885 6917; GX 6801 6897 6929; GX 6833 6929 6961; GX 6790 6886 6918; GX 6839 6935 6967;
GX 6961 6967 1118; GX 6818 6914 6946; GX 6952 6946 5029; GX 6819 6915 6947; GX 6947 5029 975; GX 6951 975 971;
GA 971 975 958; GX 6820 6916 6948; GX 6948 6946 5023; GX 5023 6947 4988; GX 6952 4988 974; GA 974 6952 960;
GX 6827 6923 6955; GX 6821 6917 6949; GX 6951 6949 5020; GX 6802 6898 6930; GX 6834 6930 6962; GX 6803 6899 6931;
GX 6835 6931 6963; GX 6963 6961 4885; GX 6804 6900 6932; GX 6805 6901 6933; GX 6837 6933 6965; GX 6967 6965 4884;
GX 6806 6902 6934; GX 6838 6934 6966; GX 6965 6966 4868; GX 6966 4884 4886; GX 6962 4886 1106; GX 6967 6966 4905;
GX 6963 4886 1103; GA 1118 1103 1099; GX 1099 4885 4891; GX 6961 6966 1116; GX 6808 6904 6936; GX 6793 6889 6921;
GX 6825 6921 6953; GX 6955 6953 4953; GX 6794 6890 6922; GX 6826 6922 6954; GX 6960 6954 4961; GX 6955 4961 1045;
GX 4953 4961 1042; GX 6796 6892 6924; GX 6828 6924 6956; GX 6956 6953 1047; GX 6956 6954 4955; GX 4955 4953 4921;
GX 4955 6955 4920; GX 6960 4920 1044; GA 1044 6960 1030; GX 6797 6893 6925; GX 6829 6925 6957; GX 6798 6894 6926;
GX 6830 6926 6958; GX 6953 6958 1046; GX 6958 6956 1049; GX 4953 1049 1034; GA 1049 1034 1025; GX 6957 6958 4936;
GX 6785 6881 6913; GX 6817 6913 6945; GX 6945 6951 978; GX 6948 6945 977; GX 6947 6945 5021; GX 5023 5021 4989;
GX 5020 977 969; GX 6952 969 968; GX 5020 4989 967; GX 5021 5029 972; GX 6841 6937 6969; GX 6969 6975 908;
GA 908 893 889; GX 6971 6969 5089; GX 5091 5089 5057; GX 5088 5057 897; GX 5089 5097 902; GX 5109 902 900;
GA 902 895 887; GX 6969 6974 906; GA 906 897 884; GX 884 890 5100; GX 6971 5100 5115; GX 889 5089 5095;
GX 6972 6969 907; GX 907 5109 903; GA 907 896 886; GX 5088 907 899; GX 6976 899 898; GA 900 898 891;
GA 903 899 892; GX 892 5091 5096; GX 5089 909 894; GA 909 894 885; GX 885 886 5071; GX 5071 5072 5123;
GX 5123 5095 5120; GX 888 5120 882; GX 885 891 5101; GX 5101 5100 5079; GX 6969 5101 5116; GX 5089 5079 880;
GX 886 5090 5092; GX 5096 5092 5102; GX 5116 5102 883; GA 883 882 879; GX 879 5115 5069; GX 5102 5069 874;
GX 884 887 5094; GX 5095 5094 5080; GX 5092 5080 881; GX 879 881 878; GA 880 878 877; GX 877 5102 5117;
GX 889 877 5064; GX 5096 5064 5060; GX 6969 5060 5063; GX 6971 5060 5059; GX 885 5094 5114; GX 888 5114 5070;
GX 6975 5070 875; GA 874 875 873; GX 879 873 871; GX 873 890 5067; GX 5067 887 5062; GX 5062 5063 864;
GX 873 5114 5068; GA 881 871 870; GA 864 896 854; GA 864 907 845; GX 870 888 5099; GX 870 878 868;
GX 5099 5120 862; GA 862 903 851; GA 862 899 860; GX 854 860 5110; GX 6975 5099 5107; GX 5107 5068 869;
GA 869 900 850; GA 869 898 859; GX 873 881 872; GA 872 6976 858; GA 872 904 849; GX 5115 5117 876;
GA 876 895 855; GA 876 868 867; GX 867 5117 5061; GX 5116 5061 863; GA 863 908 848; GA 876 902 846;
GA 863 893 857; GX 854 857 5081; GX 857 860 5105; GI 5105 5076; GX 846 858 5111; GX 867 891 5066;
GX 5107 5066 5058; GX 5089 5058 5065; GX 5062 5065 865; GX 5058 5059 861; GA 865 897 852; GA 861 894 853;
GA 861 909 844; GA 865 906 843; GX 843 845 5077; GX 853 5110 5083].
(** aes128_ks.txt:5254-5503 *)
Definition aes_ks_file_g21 : list gate := [
GX 848 852 5106; GX 5110 5106 5078; GX 5077 5078 5121; GX 5121 5111 910; GI 910 5873; GX 855 858 5112;
GX 5112 5076 5087; GX 844 845 5093; GX 850 5093 5098; GX 5076 5098 5075; GX 851 5098 5103; GX 859 5103 5108;
GX 5108 5083 911; GI 911 5874; GX 6850 5874 6978; GX 6882 6978 7010; GX 6914 7010 7042; GX 6851 5873 6979;
GX 6883 6979 7011; GX 6915 7011 7043; GX 6947 7043 7075; GX 867 880 866; GA 866 901 847; GA 866 905 856;
GX 856 5108 5119; GX 5105 5119 5872; GX 847 5093 5113; GX 848 5113 5086; GX 5086 5087 5085; GX 853 856 5104;
GX 5104 5106 5118; GX 5104 5103 5082; GX 5081 5082 5875; GX 855 5118 5084; GX 5113 5084 912; GI 912 5869;
GX 5112 5119 5871; GX 849 5111 5074; GX 5074 5075 5073; GI 5073 5122; GX 5122 5118 5870; GX 6836 6932 6964;
GX 6966 6964 1119; GX 4885 1119 1104; GA 1119 1104 1095; GX 6964 6962 4887; GX 4887 4885 4853; GX 4884 4853 1107;
GA 1116 1107 1094; GX 6964 6961 1117; GX 1117 4905 1113; GX 4884 1117 1109; GA 1113 1109 1102; GX 1102 4887 4892;
GA 1117 1106 1096; GX 1096 4886 4888; GX 4892 4888 4898; GX 1095 1096 4867; GX 4867 4868 4919; GX 4919 4891 4916;
GX 4887 6963 4852; GX 6840 6936 6968; GX 6968 1109 1108; GX 6968 6962 4893; GX 6963 4893 1115; GX 6967 1115 1111;
GX 4885 4893 1112; GX 4893 4886 1105; GA 1112 1105 1097; GX 1094 1097 4890; GX 4891 4890 4876; GX 4888 4876 1091;
GA 1111 1115 1098; GX 1098 4916 1092; GX 4905 1112 1110; GA 1110 1108 1101; GX 1095 1101 4897; GX 6961 4897 4912;
GX 4912 4898 1093; GA 1093 1092 1089; GX 1095 4890 4910; GX 1089 1091 1088; GX 1098 4910 4866; GX 6967 4866 1085;
GX 6968 4852 1114; GA 1114 6968 1100; GX 1094 1100 4896; GX 4897 4896 4875; GX 4885 4875 1090; GX 6963 4896 4911;
GX 1089 4911 4865; GA 1090 1088 1087; GX 1087 4898 4913; GX 4911 4913 1086; GA 1086 1105 1065; GA 1086 1112 1056;
GX 4898 4865 1084; GA 1084 1085 1083; GX 1089 1083 1081; GX 1083 1091 1082; GA 1082 1114 1059; GX 1083 4910 4864;
GA 1082 6968 1068; GX 1065 1068 4908; GA 1091 1081 1080; GX 1080 1098 4895; GX 4895 4916 1072; GX 1080 1088 1078;
GA 1086 1078 1077; GX 1077 1090 1076; GA 1076 1111 1057; GA 1072 1109 1070; GX 1077 4913 4857; GX 4912 4857 1073;
GA 1073 1118 1058; GA 1073 1103 1067; GX 1077 1101 4862; GX 1067 1070 4901; GI 4901 4872; GX 4908 4872 4883;
GX 6967 4895 4903; GX 4903 4864 1079; GA 1079 1108 1069; GX 1056 1068 4907; GA 1076 1115 1066; GX 1059 4907 4870;
GX 1083 1100 4863; GX 4863 1097 4858; GX 4903 4862 4854; GX 4885 4854 4861; GX 4858 4861 1075; GA 1075 1116 1053;
GX 1099 1087 4860; GX 4892 4860 4856; GX 6961 4856 4859; GX 4858 4859 1074; GA 1074 1117 1055; GX 1053 1055 4873;
GA 1074 1106 1064; GX 1064 1067 4877; GX 1064 1070 4906; GX 6963 4856 4855; GX 4854 4855 1071; GA 1071 1119 1054;
GA 1071 1104 1063; GX 1063 4906 4879; GX 1063 1066 4900; GX 1054 1055 4889; GX 1057 4889 4909; GX 1058 4909 4882;
GX 4882 4883 4881; GA 1075 1107 1062; GX 1058 1062 4902; GX 4900 4902 4914; GX 4906 4902 4874; GX 1065 4914 4880;
GX 4909 4880 1122; GI 1122 5890; GX 4873 4874 4917; GX 4917 4907 1120; GI 1120 5894; GA 1072 1113 1061;
GA 1079 1110 1060; GX 1060 4889 4894; GX 1061 4894 4899; GX 1069 4899 4904; GX 1066 4904 4915; GX 4904 4879 1121;
GI 1121 5895; GX 4908 4915 5892; GX 4901 4915 5893; GX 4900 4899 4878; GX 4877 4878 5896; GX 4872 4894 4871;
GX 4870 4871 4869; GX 6876 5893 7004; GI 4869 4918; GX 4918 4914 5891; GX 6873 5896 135; GI 135 7001;
GX 6905 7001 7033; GX 6937 7033 7065; GX 6908 7004 7036; GX 6940 7036 7068; GX 6972 7068 7100; GX 6969 7065 7097;
GX 7100 7097 627; GX 6874 5895 7002; GX 6906 7002 7034; GX 6938 7034 7066; GX 6970 7066 7098; GX 7100 7098 5363;
GX 6877 5892 7005; GX 6878 5891 7006; GX 6879 5890 7007; GX 6911 7007 7039; GX 6943 7039 7071; GX 6975 7071 7103;
GX 7097 7103 628; GX 6880 4881 7008; GX 6912 7008 7040; GX 6944 7040 7072; GX 6976 7072 7104; GX 7104 7098 5369;
GX 6831 6927 6959; GX 6959 1045 1041; GA 1041 1045 1028; GX 6953 6959 1048; GX 6959 6957 4952; GX 6959 6958 4973;
GX 4973 1042 1040; GX 4952 4921 1037; GA 1046 1037 1024; GX 1024 1030 4964; GX 6955 4964 4979; GX 1047 4973 1043;
GX 6958 4952 4954; GX 6954 4954 1036; GX 4961 4954 1035; GA 1042 1035 1027; GX 1024 1027 4958; GX 1025 4958 4978;
GX 1028 4978 4934; GX 6959 4934 1015; GX 4952 1047 1039; GA 1043 1039 1032; GX 1032 4955 4960; GX 6960 1039 1038;
GA 1040 1038 1031; GX 1025 1031 4965; GX 6953 4965 4980; GX 4965 4964 4943; GX 4953 4943 1020; GX 6955 4954 1033;
GA 1048 1033 1029; GX 1029 4953 4959; GX 4959 4958 4944; GA 1047 1036 1026; GX 1026 4954 4956; GX 4956 4944 1021;
GX 4960 4956 4966; GX 4980 4966 1023; GX 1025 1026 4935; GX 4935 4936 4987; GX 4987 4959 4984; GX 1028 4984 1022;
GA 1023 1022 1019; GX 1019 1021 1018; GA 1020 1018 1017; GX 1017 4966 4981].
(** aes128_ks.txt:5504-5753 *)
Definition aes_ks_file_g22 : list gate := [
GX 4979 4981 1016; GA 1016 1035 995; GA 1016 1042 986; GX 1029 1017 4928; GX 4960 4928 4924; GX 6955 4924 4923;
GX 6953 4924 4927; GX 1019 4979 4933; GX 4966 4933 1014; GA 1014 1015 1013; GX 1013 4978 4932; GX 1019 1013 1011;
GX 1013 1021 1012; GA 1012 6960 998; GX 986 998 4975; GX 995 998 4976; GA 1012 1044 989; GX 989 4975 4938;
GX 1013 1030 4931; GX 4931 1027 4926; GX 4926 4927 1004; GA 1004 1036 994; GA 1004 1047 985; GA 1021 1011 1010;
GX 1010 1018 1008; GA 1016 1008 1007; GX 1007 1031 4930; GX 1007 4981 4925; GX 4980 4925 1003; GA 1003 1048 988;
GA 1003 1033 997; GX 1007 1020 1006; GA 1006 1045 996; GA 1006 1041 987; GX 994 997 4945; GX 1010 1028 4963;
GX 4963 4984 1002; GA 1002 1043 991; GX 6959 4963 4971; GX 4971 4932 1009; GA 1009 1038 999; GX 4971 4930 4922;
GX 4953 4922 4929; GX 4926 4929 1005; GA 1005 1046 983; GA 1005 1037 992; GX 988 992 4970; GX 983 985 4941;
GX 4922 4923 1001; GA 1001 1049 984; GA 1001 1034 993; GX 993 996 4968; GX 4968 4970 4982; GX 984 985 4957;
GX 987 4957 4977; GX 988 4977 4950; GX 995 4982 4948; GX 4977 4948 1052; GI 1052 5883; GA 1009 1040 990;
GX 990 4957 4962; GX 991 4962 4967; GX 999 4967 4972; GX 996 4972 4983; GX 4976 4983 5885; GX 4968 4967 4946;
GX 4945 4946 5889; GA 1002 1039 1000; GX 997 1000 4969; GI 4969 4940; GX 4940 4962 4939; GX 4976 4940 4951;
GX 4950 4951 4949; GX 4938 4939 4937; GX 4969 4983 5886; GI 4937 4986; GX 4986 4982 5884; GX 994 1000 4974;
GX 993 4974 4947; GX 4974 4970 4942; GX 4941 4942 4985; GX 4985 4975 1050; GI 1050 5887; GX 4972 4947 1051;
GI 1051 5888; GX 6872 4949 7000; GX 6904 7000 7032; GX 6936 7032 7064; GX 6968 7064 7096; GX 6865 5889 6993;
GX 6866 5888 6994; GX 6867 5887 6995; GX 6899 6995 7027; GX 6931 7027 7059; GX 6963 7059 7091; GX 6822 6918 6950;
GX 6950 6948 979; GX 6950 5020 5022; GX 6946 5022 966; GX 6947 5022 963; GA 978 963 959; GA 977 966 956;
GX 956 5022 5024; GX 6949 6950 5004; GX 6945 6950 976; GA 976 967 954; GX 954 960 5032; GX 959 5021 5027;
GX 6951 6950 5041; GX 977 5041 973; GA 973 969 962; GX 962 5023 5028; GX 5041 972 970; GX 6947 5032 5047;
GA 970 968 961; GX 5021 979 964; GA 979 964 955; GX 955 961 5033; GX 955 956 5003; GX 5003 5004 5055;
GX 6945 5033 5048; GX 5055 5027 5052; GX 958 5052 952; GX 5033 5032 5011; GX 5021 5011 950; GX 5029 5022 965;
GA 972 965 957; GX 954 957 5026; GX 5027 5026 5012; GX 955 5026 5046; GX 958 5046 5002; GX 5024 5012 951;
GX 6951 5002 945; GX 5028 5024 5034; GX 5048 5034 953; GA 953 952 949; GX 949 951 948; GA 950 948 947;
GX 959 947 4996; GX 5028 4996 4992; GX 6947 4992 4991; GX 949 5047 5001; GX 5034 5001 944; GX 947 5034 5049;
GX 5047 5049 946; GA 946 972 916; GA 946 965 925; GX 6945 4992 4995; GA 944 945 943; GX 943 960 4999;
GX 943 5046 5000; GX 943 951 942; GA 942 6952 928; GX 916 928 5043; GX 925 928 5044; GX 4999 957 4994;
GX 949 943 941; GA 951 941 940; GX 940 948 938; GA 946 938 937; GX 937 961 4998; GX 937 5049 4993;
GX 940 958 5031; GX 6951 5031 5039; GX 5031 5052 932; GA 932 973 921; GA 932 969 930; GX 5039 5000 939;
GA 939 970 920; GA 939 968 929; GX 5048 4993 933; GA 933 978 918; GX 4994 4995 934; GA 934 966 924;
GA 934 977 915; GX 924 930 5042; GX 937 950 936; GA 936 971 917; GA 936 975 926; GX 5039 4998 4990;
GX 4990 4991 931; GA 931 979 914; GA 931 964 923; GX 923 926 5036; GX 5021 4990 4997; GX 4994 4997 935;
GA 935 976 913; GA 935 967 922; GX 923 5042 5015; GX 913 915 5009; GA 933 963 927; GX 924 927 5013;
GX 927 930 5037; GI 5037 5008; GX 5044 5008 5019; GA 942 974 919; GX 919 5043 5006; GX 918 922 5038;
GX 5036 5038 5050; GX 5042 5038 5010; GX 5009 5010 5053; GX 925 5050 5016; GX 5053 5043 980; GI 980 5880;
GX 914 915 5025; GX 920 5025 5030; GX 921 5030 5035; GX 929 5035 5040; GX 926 5040 5051; GX 5037 5051 5879;
GX 917 5025 5045; GX 5045 5016 982; GI 982 5876; GX 5044 5051 5878; GX 5036 5035 5014; GX 5013 5014 5882;
GX 5040 5015 981; GI 981 5881; GX 918 5045 5018; GX 5018 5019 5017; GX 5008 5030 5007; GX 5006 5007 5005;
GI 5005 5054; GX 6863 5876 6991; GX 6895 6991 7023; GX 6927 7023 7055; GX 6959 7055 7087; GX 6860 5879 6988;
GX 6892 6988 7020; GX 6924 7020 7052; GX 6956 7052 7084; GX 6857 5882 6985; GX 6889 6985 7017; GX 6861 5878 6989;
GX 6893 6989 7021; GX 6925 7021 7053; GX 6957 7053 7085; GX 7087 7085 5224; GX 6864 5017 6992; GX 6896 6992 7024;
GX 6928 7024 7056; GX 6960 7056 7088; GX 6921 7017 7049; GX 6953 7049 7081; GX 7084 7081 767; GX 7081 7087 768;
GX 5224 767 759; GX 7088 759 758; GX 5054 5050 5877; GX 6875 5894 7003].
(** aes128_ks.txt:5754-6003 *)
Definition aes_ks_file_g23 : list gate := [
GX 6907 7003 7035; GX 6939 7035 7067; GX 6971 7067 7099; GX 7099 5369 625; GX 7099 7097 5361; GX 5363 5361 5329;
GX 5361 5369 622; GX 7103 625 621; GA 621 625 608; GX 5363 7099 5328; GX 7104 5328 624; GA 624 7104 610;
GX 6868 5886 6996; GX 6900 6996 7028; GX 6932 7028 7060; GX 6964 7060 7092; GX 6869 5885 6997; GX 6901 6997 7029;
GX 6933 7029 7061; GX 6965 7061 7093; GX 6870 5884 6998; GX 6902 6998 7030; GX 6934 7030 7062; GX 6966 7062 7094;
GX 7093 7094 5140; GX 7094 7092 839; GX 6871 5883 6999; GX 6903 6999 7031; GX 6935 7031 7063; GX 6967 7063 7095;
GX 7095 7093 5156; GX 7094 5156 5158; GX 7091 5158 823; GX 7095 7094 5177; GX 6858 5881 6986; GX 6890 6986 7018;
GX 6922 7018 7050; GX 6954 7050 7082; GX 7084 7082 5227; GX 7088 7082 5233; GX 6859 5880 6987; GX 6891 6987 7019;
GX 6923 7019 7051; GX 6955 7051 7083; GX 7083 5233 765; GX 5227 7083 5192; GX 7087 765 761; GA 761 765 748;
GX 7088 5192 764; GA 764 7088 750; GX 7083 7081 5225; GX 5227 5225 5193; GX 5224 5193 757; GX 5225 5233 762;
GX 6862 5877 6990; GX 6894 6990 7022; GX 6926 7022 7054; GX 6958 7054 7086; GX 7086 5224 5226; GX 7085 7086 5208;
GX 7082 5226 756; GA 767 756 746; GX 746 5226 5228; GX 7086 7084 769; GX 7083 5226 753; GA 768 753 749;
GX 749 5225 5231; GX 5233 5226 755; GA 762 755 747; GX 7081 7086 766; GA 766 757 744; GX 744 747 5230;
GX 5231 5230 5216; GX 5228 5216 741; GX 744 750 5236; GX 7083 5236 5251; GX 5225 769 754; GA 769 754 745;
GX 745 5230 5250; GX 745 746 5207; GX 5207 5208 5259; GX 748 5250 5206; GX 7087 5206 735; GX 7087 7086 5245;
GX 767 5245 763; GA 763 759 752; GX 752 5227 5232; GX 5232 5228 5238; GX 5245 762 760; GA 760 758 751;
GX 745 751 5237; GX 5237 5236 5215; GX 7081 5237 5252; GX 5225 5215 740; GX 5252 5238 743; GX 5259 5231 5256;
GX 748 5256 742; GA 743 742 739; GX 739 5251 5205; GX 5238 5205 734; GA 734 735 733; GX 733 750 5203;
GX 5203 747 5198; GX 733 5250 5204; GX 739 733 731; GA 741 731 730; GX 730 748 5235; GX 7087 5235 5243;
GX 5243 5204 729; GA 729 758 719; GA 729 760 710; GX 733 741 732; GA 732 7088 718; GA 732 764 709;
GX 5235 5256 722; GA 722 763 711; GA 722 759 720; GX 739 741 738; GX 730 738 728; GA 740 738 737;
GX 737 5238 5253; GX 5251 5253 736; GA 736 728 727; GX 727 751 5202; GX 727 740 726; GX 749 737 5200;
GX 5232 5200 5196; GX 727 5253 5197; GX 5243 5202 5194; GA 736 755 715; GX 715 718 5248; GA 726 761 707;
GX 7083 5196 5195; GX 5194 5195 721; GA 721 754 713; GX 5225 5194 5201; GX 5198 5201 725; GA 725 757 712;
GA 721 769 704; GA 725 766 703; GX 7081 5196 5199; GX 5198 5199 724; GA 724 756 714; GX 714 720 5246;
GX 713 5246 5219; GA 724 767 705; GX 704 705 5229; GX 703 705 5213; GX 707 5229 5249; GA 736 762 706;
GX 706 718 5247; GX 709 5247 5210; GX 5252 5197 723; GA 723 768 708; GA 723 753 717; GX 714 717 5217;
GX 717 720 5241; GI 5241 5212; GX 5248 5212 5223; GX 708 712 5242; GX 5246 5242 5214; GX 5213 5214 5257;
GX 708 5249 5222; GX 5222 5223 5221; GX 7000 5221 7128; GX 5257 5247 770; GI 770 5915; GX 6995 5915 7123;
GX 7027 7123 7155; GX 7059 7155 7187; GX 7091 7187 7219; GX 710 5229 5234; GX 711 5234 5239; GX 719 5239 5244;
GX 5244 5219 771; GI 771 5916; GX 6994 5916 7122; GA 726 765 716; GX 713 716 5240; GX 5240 5239 5218;
GX 5217 5218 5917; GX 6993 5917 7121; GX 5240 5242 5254; GX 715 5254 5220; GX 5249 5220 772; GX 716 5244 5255;
GX 5248 5255 5913; GX 6997 5913 7125; GX 7029 7125 7157; GX 5241 5255 5914; GX 6996 5914 7124; GI 772 5911;
GX 6999 5911 7127; GX 7031 7127 7159; GX 7063 7159 7191; GX 7095 7191 7223; GX 5212 5234 5211; GX 5210 5211 5209;
GI 5209 5258; GX 5258 5254 5912; GX 6998 5912 7126; GX 7030 7126 7158; GX 7062 7158 7190; GX 7094 7190 7222;
GX 7223 7222 5449; GX 7032 7128 7160; GX 7064 7160 7192; GX 7096 7192 7224; GX 7061 7157 7189; GX 7093 7189 7221;
GX 7223 7221 5428; GX 7221 7222 5412; GX 7222 5428 5430; GX 7219 5430 543; GX 6849 5875 6977; GX 6881 6977 7009;
GX 6913 7009 7041; GX 6945 7041 7073; GX 7075 7073 5293; GX 6852 5872 6980; GX 6884 6980 7012; GX 6916 7012 7044;
GX 6948 7044 7076; GX 7076 7073 697; GX 6853 5871 6981; GX 6885 6981 7013; GX 6917 7013 7045; GX 6949 7045 7077;
GX 6854 5870 6982; GX 6886 6982 7014; GX 6918 7014 7046; GX 6855 5869 6983; GX 6887 6983 7015; GX 6919 7015 7047;
GX 6951 7047 7079; GX 7073 7079 698; GX 7079 7077 5292; GX 5292 697 689; GX 6856 5085 6984; GX 6888 6984 7016;
GX 6920 7016 7048; GX 6952 7048 7080; GX 7080 689 688; GX 6909 7005 7037; GX 6941 7037 7069; GX 6973 7069 7101;
GX 7103 7101 5360; GX 5360 5329 617; GX 5360 627 619; GX 7104 619 618].
(** aes128_ks.txt:6004-6253 *)
Definition aes_ks_file_g24 : list gate := [
GX 6910 7006 7038; GX 6942 7038 7070; GX 6974 7070 7102; GX 7102 7100 629; GX 5361 629 614; GA 629 614 605;
GX 7101 7102 5344; GX 7097 7102 626; GA 626 617 604; GX 7102 5360 5362; GX 7099 5362 613; GX 5369 5362 615;
GA 622 615 607; GX 604 607 5366; GX 7098 5362 616; GA 627 616 606; GX 605 606 5343; GX 5343 5344 5395;
GX 606 5362 5364; GX 604 610 5372; GX 7103 7102 5381; GX 5381 622 620; GA 620 618 611; GX 605 611 5373;
GX 5373 5372 5351; GX 7097 5373 5388; GX 5361 5351 600; GX 627 5381 623; GA 623 619 612; GX 612 5363 5368;
GX 5368 5364 5374; GX 5388 5374 603; GX 605 5366 5386; GX 608 5386 5342; GX 7103 5342 595; GX 7099 5372 5387;
GA 628 613 609; GX 609 5361 5367; GX 5367 5366 5352; GX 5364 5352 601; GX 5395 5367 5392; GX 608 5392 602;
GA 603 602 599; GX 599 5387 5341; GX 5374 5341 594; GA 594 595 593; GX 593 5386 5340; GX 593 610 5339;
GX 5339 607 5334; GX 593 601 592; GA 592 624 569; GX 599 601 598; GA 600 598 597; GX 609 597 5336;
GX 5368 5336 5332; GX 7099 5332 5331; GX 7097 5332 5335; GX 5334 5335 584; GA 584 616 574; GX 597 5374 5389;
GX 599 593 591; GX 5387 5389 596; GA 596 622 566; GA 596 615 575; GA 601 591 590; GX 590 608 5371;
GX 5371 5392 582; GA 582 623 571; GA 582 619 580; GX 574 580 5382; GX 590 598 588; GX 7103 5371 5379;
GX 5379 5340 589; GA 589 618 579; GA 589 620 570; GA 596 588 587; GX 587 611 5338; GX 587 5389 5333;
GX 5388 5333 583; GA 583 613 577; GA 583 628 568; GX 574 577 5353; GX 587 600 586; GA 586 625 576;
GA 586 621 567; GX 5379 5338 5330; GX 5330 5331 581; GA 581 629 564; GX 5361 5330 5337; GX 5334 5337 585;
GA 585 617 572; GA 581 614 573; GX 573 5382 5355; GX 573 576 5376; GX 577 580 5377; GI 5377 5348;
GX 568 572 5378; GX 5382 5378 5350; GX 5376 5378 5390; GX 575 5390 5356; GA 585 626 563; GA 592 7104 578;
GX 566 578 5383; GX 569 5383 5346; GX 575 578 5384; GX 5384 5348 5359; GA 584 627 565; GX 563 565 5349;
GX 5349 5350 5393; GX 5393 5383 630; GI 630 5901; GX 6979 5901 7107; GX 564 565 5365; GX 570 5365 5370;
GX 5348 5370 5347; GX 5346 5347 5345; GI 5345 5394; GX 571 5370 5375; GX 5376 5375 5354; GX 5353 5354 5903;
GX 6977 5903 7105; GX 5394 5390 5898; GX 6982 5898 7110; GX 7014 7110 7142; GX 7046 7142 7174; GX 579 5375 5380;
GX 5380 5355 631; GI 631 5902; GX 6978 5902 7106; GX 7010 7106 7138; GX 7042 7138 7170; GX 576 5380 5391;
GX 5377 5391 5900; GX 6980 5900 7108; GX 7012 7108 7140; GX 5384 5391 5899; GX 6981 5899 7109; GX 7013 7109 7141;
GX 567 5365 5385; GX 5385 5356 632; GI 632 5897; GX 6983 5897 7111; GX 7015 7111 7143; GX 7047 7143 7175;
GX 568 5385 5358; GX 5358 5359 5357; GX 6984 5357 7112; GX 7016 7112 7144; GX 7048 7144 7176; GX 7080 7176 7208;
GX 7079 7175 7207; GX 7044 7140 7172; GX 7076 7172 7204; GX 7045 7141 7173; GX 7077 7173 7205; GX 7011 7107 7139;
GX 7043 7139 7171; GX 7075 7171 7203; GX 7009 7105 7137; GX 7041 7137 7169; GX 7073 7169 7201; GX 6897 6993 7025;
GX 7025 7121 7153; GX 6929 7025 7057; GX 7057 7153 7185; GX 6961 7057 7089; GX 7089 7095 838; GX 7089 7185 7217;
GX 7217 7223 558; GA 558 543 539; GX 7091 7089 5157; GX 7089 7094 836; GX 5157 839 824; GX 7219 7217 5429;
GX 539 5429 5435; GA 838 823 819; GX 819 5157 5163; GX 7217 7222 556; GX 7092 7089 837; GX 837 5177 833;
GX 5156 837 829; GA 833 829 822; GX 7096 829 828; GA 839 824 815; GX 6898 6994 7026; GX 6930 7026 7058;
GX 6962 7058 7090; GX 7090 5158 826; GX 7096 7090 5165; GX 5165 5158 825; GX 7091 5165 835; GX 7095 835 831;
GA 831 835 818; GX 7092 7090 5159; GX 5159 5157 5125; GX 5156 5125 827; GX 5159 7091 5124; GX 822 5159 5164;
GX 7096 5124 834; GA 836 827 814; GX 7026 7122 7154; GX 7058 7154 7186; GX 7090 7186 7218; GX 7224 7218 5437;
GX 7219 5437 555; GX 7223 555 551; GA 551 555 538; GX 5437 5430 545; GX 5429 5437 552; GX 5449 552 550;
GA 552 545 537; GX 7218 5430 546; GX 5157 5165 832; GA 832 825 817; GX 5177 832 830; GA 830 828 821;
GX 814 817 5162; GX 815 5162 5182; GX 818 5182 5138; GX 815 821 5169; GX 7089 5169 5184; GX 5163 5162 5148;
GA 837 826 816; GX 816 5158 5160; GX 815 816 5139; GX 5164 5160 5170; GX 5184 5170 813; GX 5160 5148 811;
GX 5139 5140 5191; GX 5191 5163 5188; GX 818 5188 812; GA 813 812 809; GX 809 811 808; GX 7095 5138 805;
GA 834 7096 820; GX 814 820 5168; GX 7091 5168 5183; GX 809 5183 5137; GX 5169 5168 5147; GX 5157 5147 810;
GA 810 808 807; GX 5170 5137 804; GA 804 805 803; GX 809 803 801; GX 803 5182 5136; GX 803 811 802;
GA 802 7096 788; GA 802 834 779; GX 807 5170 5185; GX 803 820 5135].
(** aes128_ks.txt:6254-6503 *)
Definition aes_ks_file_g25 : list gate := [
GX 5135 817 5130; GX 819 807 5132; GX 5164 5132 5128; GX 7091 5128 5127; GX 7089 5128 5131; GX 5130 5131 794;
GA 794 837 775; GX 5183 5185 806; GA 806 825 785; GX 785 788 5180; GA 806 832 776; GX 776 788 5179;
GX 779 5179 5142; GA 794 826 784; GA 811 801 800; GX 800 818 5167; GX 800 808 798; GA 806 798 797;
GX 797 821 5134; GX 5167 5188 792; GA 792 829 790; GX 797 810 796; GA 796 835 786; GA 796 831 777;
GX 784 790 5178; GX 7095 5167 5175; GX 5175 5136 799; GA 799 828 789; GA 799 830 780; GX 5175 5134 5126;
GX 5157 5126 5133; GX 5130 5133 795; GA 795 836 773; GX 5126 5127 791; GA 791 839 774; GA 791 824 783;
GX 783 786 5172; GX 774 775 5161; GX 780 5161 5166; GX 777 5161 5181; GA 795 827 782; GX 773 775 5145;
GX 797 5185 5129; GX 5184 5129 793; GA 793 838 778; GX 778 782 5174; GX 5172 5174 5186; GX 785 5186 5152;
GX 5178 5174 5146; GX 5145 5146 5189; GX 5189 5179 840; GX 778 5181 5154; GI 840 5922; GX 7003 5922 7131;
GX 7035 7131 7163; GX 7067 7163 7195; GX 7099 7195 7227; GX 5181 5152 842; GI 842 5918; GX 783 5178 5151;
GA 793 823 787; GX 784 787 5149; GX 787 790 5173; GI 5173 5144; GX 5144 5166 5143; GX 5142 5143 5141;
GI 5141 5190; GX 5190 5186 5919; GX 7006 5919 7134; GX 7038 7134 7166; GX 7070 7166 7198; GX 7102 7198 7230;
GX 5180 5144 5155; GX 5154 5155 5153; GX 7008 5153 139; GI 139 7136; GX 7040 7136 7168; GX 7072 7168 7200;
GX 7104 7200 7232; GA 792 833 781; GX 781 5166 5171; GX 5172 5171 5150; GX 5149 5150 5924; GX 789 5171 5176;
GX 786 5176 5187; GX 5173 5187 5921; GX 5176 5151 841; GI 841 5923; GX 5180 5187 5920; GX 7005 5920 137;
GI 137 7133; GX 7037 7133 7165; GX 7069 7165 7197; GX 7101 7197 7229; GX 7002 5923 7130; GX 7034 7130 7162;
GX 7066 7162 7194; GX 7098 7194 7226; GX 7232 7226 5641; GX 7227 5641 345; GX 7004 5921 136; GI 136 7132;
GX 7036 7132 7164; GX 7068 7164 7196; GX 7100 7196 7228; GX 7228 7226 5635; GX 7230 7228 349; GX 7001 5924 7129;
GX 7033 7129 7161; GX 7065 7161 7193; GX 7097 7193 7225; GX 7227 7225 5633; GX 5633 349 334; GX 7225 7230 346;
GX 7228 7225 347; GX 5633 5641 342; GX 6946 7042 7074; GX 7074 7170 7202; GX 7076 7074 5295; GX 5295 5293 5261;
GX 5295 7075 5260; GX 7080 5260 694; GA 694 7080 680; GX 5292 5261 687; GX 7080 7074 5301; GX 5293 5301 692;
GX 7075 5301 695; GX 7079 695 691; GA 691 695 678; GX 6950 7046 7078; GX 7073 7078 696; GX 7078 5292 5294;
GX 7075 5294 683; GA 698 683 679; GX 7074 5294 686; GA 697 686 676; GX 7078 7076 699; GX 5293 699 684;
GA 699 684 675; GX 675 676 5275; GX 676 5294 5296; GX 7078 7174 7206; GX 7205 7206 5548; GX 7207 7206 5585;
GX 7206 7204 419; GX 679 5293 5299; GX 7079 7078 5313; GX 697 5313 693; GA 693 689 682; GX 682 5295 5300;
GX 5300 5296 5306; GX 5313 692 690; GA 690 688 681; GX 7077 7078 5276; GA 696 687 674; GX 674 680 5304;
GX 7075 5304 5319; GX 5301 5294 685; GA 692 685 677; GX 674 677 5298; GX 5299 5298 5284; GX 5296 5284 671;
GX 675 5298 5318; GX 678 5318 5274; GX 7079 5274 665; GX 675 681 5305; GX 7073 5305 5320; GX 5320 5306 673;
GX 5305 5304 5283; GX 5293 5283 670; GX 5275 5276 5327; GX 5327 5299 5324; GX 678 5324 672; GA 673 672 669;
GX 669 5319 5273; GX 5306 5273 664; GA 664 665 663; GX 663 680 5271; GX 663 5318 5272; GX 669 671 668;
GA 670 668 667; GX 667 5306 5321; GX 5319 5321 666; GA 666 685 645; GX 679 667 5268; GX 5300 5268 5264;
GX 7073 5264 5267; GX 7075 5264 5263; GX 663 671 662; GA 662 7080 648; GX 645 648 5316; GA 662 694 639;
GX 669 663 661; GA 671 661 660; GX 660 668 658; GX 660 678 5303; GX 5303 5324 652; GX 7079 5303 5311;
GA 666 658 657; GX 657 670 656; GA 656 691 637; GA 656 695 646; GX 657 5321 5265; GX 5320 5265 653;
GA 653 698 638; GX 657 681 5270; GA 652 689 650; GX 5311 5272 659; GA 659 688 649; GA 659 690 640;
GX 5311 5270 5262; GX 5293 5262 5269; GX 5262 5263 651; GA 651 699 634; GA 653 683 647; GX 647 650 5309;
GI 5309 5280; GX 5316 5280 5291; GA 651 684 643; GX 643 646 5308; GA 652 693 641; GA 666 692 636;
GX 636 648 5315; GX 639 5315 5278; GX 5271 677 5266; GX 5266 5269 655; GA 655 696 633; GA 655 687 642;
GX 638 642 5310; GX 5308 5310 5322; GX 645 5322 5288; GX 5266 5267 654; GA 654 697 635; GX 633 635 5281;
GX 634 635 5297; GX 637 5297 5317; GX 5317 5288 702; GX 638 5317 5290; GX 5290 5291 5289; GX 6992 5289 7120;
GI 702 5904; GX 6991 5904 7119; GX 7023 7119 7151; GX 7055 7151 7183; GX 7087 7183 7215; GX 640 5297 5302;
GX 5280 5302 5279; GX 5278 5279 5277; GI 5277 5326; GX 5326 5322 5905].
(** aes128_ks.txt:6504-6753 *)
Definition aes_ks_file_g26 : list gate := [
GX 641 5302 5307; GX 5308 5307 5286; GX 6990 5905 7118; GX 649 5307 5312; GX 646 5312 5323; GX 5309 5323 5907;
GX 6988 5907 7116; GX 5316 5323 5906; GX 6989 5906 7117; GX 7021 7117 7149; GX 7053 7149 7181; GX 7085 7181 7213;
GX 7215 7213 5496; GX 7022 7118 7150; GX 7054 7150 7182; GX 7086 7182 7214; GX 7215 7214 5517; GX 7213 7214 5480;
GX 7214 5496 5498; GX 7020 7116 7148; GX 7052 7148 7180; GX 7084 7180 7212; GX 7214 7212 489; GA 654 686 644;
GX 644 647 5285; GX 5285 5286 5910; GX 6985 5910 7113; GX 7017 7113 7145; GX 644 650 5314; GX 5314 5310 5282;
GX 5281 5282 5325; GX 5325 5315 700; GI 700 5908; GX 643 5314 5287; GX 5312 5287 701; GI 701 5909;
GX 6987 5908 7115; GX 7019 7115 7147; GX 7051 7147 7179; GX 7083 7179 7211; GX 7211 5498 473; GX 6986 5909 7114;
GX 7018 7114 7146; GX 7050 7146 7178; GX 7082 7178 7210; GX 7210 5498 476; GX 7212 7210 5499; GX 5499 7211 5464;
GX 7024 7120 7152; GX 7056 7152 7184; GX 7088 7184 7216; GX 7216 7210 5505; GX 5505 5498 475; GX 7211 5505 485;
GX 7215 485 481; GA 481 485 468; GX 7007 5918 138; GI 138 7135; GX 7039 7135 7167; GX 7071 7167 7199;
GX 7103 7199 7231; GX 7231 7230 5653; GX 5653 342 340; GX 347 5653 343; GX 7231 345 341; GX 7231 7229 5632;
GX 7230 5632 5634; GX 5632 347 339; GX 7232 339 338; GX 5641 5634 335; GX 7227 5634 333; GX 7226 5634 336;
GX 7225 7231 348; GX 7028 7124 7156; GX 7060 7156 7188; GX 7092 7188 7220; GX 7220 7218 5431; GX 5431 5429 5397;
GX 5428 5397 547; GA 556 547 534; GX 5431 7219 5396; GX 7224 5396 554; GA 554 7224 540; GX 7222 7220 559;
GX 5429 559 544; GA 559 544 535; GX 534 537 5434; GX 5435 5434 5420; GX 535 5434 5454; GX 538 5454 5410;
GX 7223 5410 525; GX 534 540 5440; GX 7219 5440 5455; GX 7220 7217 557; GX 557 5449 553; GA 557 546 536;
GX 536 5430 5432; GX 5432 5420 531; GX 5428 557 549; GA 553 549 542; GX 542 5431 5436; GX 5436 5432 5442;
GX 7224 549 548; GA 550 548 541; GX 535 541 5441; GX 5441 5440 5419; GX 5429 5419 530; GX 7217 5441 5456;
GX 5456 5442 533; GX 535 536 5411; GX 5411 5412 5463; GX 5463 5435 5460; GX 538 5460 532; GA 533 532 529;
GX 529 5455 5409; GX 5442 5409 524; GA 524 525 523; GX 523 540 5407; GX 523 5454 5408; GX 523 531 522;
GA 522 7224 508; GA 522 554 499; GX 529 531 528; GA 530 528 527; GX 539 527 5404; GX 529 523 521;
GA 531 521 520; GX 520 538 5439; GX 7223 5439 5447; GX 5447 5408 519; GA 519 550 500; GA 519 548 509;
GX 5439 5460 512; GA 512 549 510; GA 512 553 501; GX 5436 5404 5400; GX 7217 5400 5403; GX 7219 5400 5399;
GX 520 528 518; GX 5407 537 5402; GX 5402 5403 514; GA 514 546 504; GX 504 510 5450; GA 514 557 495;
GX 527 5442 5457; GX 5455 5457 526; GA 526 545 505; GA 526 518 517; GX 517 5457 5401; GX 5456 5401 513;
GA 513 543 507; GA 526 552 496; GA 513 558 498; GX 517 530 516; GA 516 555 506; GA 516 551 497;
GX 507 510 5445; GI 5445 5416; GX 504 507 5421; GX 496 508 5451; GX 499 5451 5414; GX 517 541 5406;
GX 5447 5406 5398; GX 5398 5399 511; GA 511 544 503; GX 503 506 5444; GX 5429 5398 5405; GA 511 559 494;
GX 503 5450 5423; GX 494 495 5433; GX 497 5433 5453; GX 500 5433 5438; GX 5402 5405 515; GA 515 556 493;
GA 515 547 502; GX 493 495 5417; GX 498 502 5446; GX 5444 5446 5458; GX 505 5458 5424; GX 5453 5424 562;
GI 562 5946; GX 7135 5946 143; GI 143 7263; GX 7167 7263 7295; GX 7199 7295 7327; GX 7231 7327 7359;
GX 5416 5438 5415; GX 5414 5415 5413; GI 5413 5462; GX 5462 5458 5947; GX 7134 5947 142; GI 142 7262;
GX 5450 5446 5418; GX 5417 5418 5461; GX 5461 5451 560; GI 560 5950; GX 7131 5950 140; GX 7166 7262 7294;
GI 140 7259; GX 7163 7259 7291; GX 7195 7291 7323; GX 7227 7323 7355; GX 501 5438 5443; GX 509 5443 5448;
GX 5448 5423 561; GI 561 5951; GX 7130 5951 7258; GX 7162 7258 7290; GX 7194 7290 7322; GX 7226 7322 7354;
GX 506 5448 5459; GX 5445 5459 5949; GX 7132 5949 141; GI 141 7260; GX 7164 7260 7292; GX 7196 7292 7324;
GX 7228 7324 7356; GX 5444 5443 5422; GX 5421 5422 5952; GX 505 508 5452; GX 5452 5416 5427; GX 5452 5459 5948;
GX 7133 5948 7261; GX 7165 7261 7293; GX 7197 7293 7325; GX 7229 7325 7357; GX 498 5453 5426; GX 5426 5427 5425;
GX 7136 5425 7264; GX 7168 7264 7296; GX 7200 7296 7328; GX 7232 7328 7360; GX 7129 5952 7257; GX 7161 7257 7289;
GX 7193 7289 7321; GX 7225 7321 7353; GX 7198 7294 7326; GX 7230 7326 7358; GX 7049 7145 7177; GX 7081 7177 7209;
GX 7212 7209 487; GX 7209 7214 486; GA 487 476 466; GX 7209 7215 488; GX 487 5517 483; GX 5496 487 479;
GA 483 479 472; GA 488 473 469; GX 472 5499 5504; GX 466 5498 5500].
(** aes128_ks.txt:6754-7003 *)
Definition aes_ks_file_g27 : list gate := [
GX 5504 5500 5510; GX 7211 7209 5497; GX 5497 489 474; GX 5497 5505 482; GA 489 474 465; GX 465 466 5479;
GX 5479 5480 5531; GX 5499 5497 5465; GX 5496 5465 477; GA 486 477 464; GX 469 5497 5503; GA 482 475 467;
GX 464 467 5502; GX 5503 5502 5488; GX 465 5502 5522; GX 468 5522 5478; GX 7215 5478 455; GX 5517 482 480;
GX 5500 5488 461; GX 5635 7227 5600; GX 7232 5600 344; GA 343 339 332; GX 332 5635 5640; GA 340 338 331;
GA 344 7232 330; GA 348 333 329; GX 329 5633 5639; GA 341 345 328; GA 342 335 327; GA 347 336 326;
GX 326 5634 5636; GX 5640 5636 5646; GX 7201 7207 418; GX 7229 7230 5616; GX 5635 5633 5601; GX 5632 5601 337;
GA 346 337 324; GX 324 327 5638; GX 324 330 5644; GX 7227 5644 5659; GX 5639 5638 5624; GX 5636 5624 321;
GA 349 334 325; GX 325 5638 5658; GX 325 331 5645; GX 7225 5645 5660; GX 5660 5646 323; GX 5645 5644 5623;
GX 5633 5623 320; GX 325 326 5615; GX 5615 5616 5667; GX 5667 5639 5664; GX 328 5664 322; GA 323 322 319;
GX 319 321 318; GX 319 5659 5613; GA 320 318 317; GX 317 5646 5661; GX 5659 5661 316; GA 316 335 295;
GA 316 342 286; GX 328 5658 5614; GX 7231 5614 315; GX 5646 5613 314; GX 329 317 5608; GX 5640 5608 5604;
GX 7225 5604 5607; GX 7227 5604 5603; GA 314 315 313; GX 319 313 311; GX 313 321 312; GX 313 330 5611;
GA 321 311 310; GX 310 328 5643; GX 7231 5643 5651; GX 310 318 308; GX 5643 5664 302; GA 316 308 307;
GX 307 320 306; GA 306 341 287; GX 307 5661 5605; GX 5660 5605 303; GA 303 348 288; GA 302 343 291;
GA 302 339 300; GA 312 7232 298; GX 286 298 5655; GX 295 298 5656; GA 303 333 297; GX 297 300 5649;
GI 5649 5620; GX 5656 5620 5631; GX 313 5658 5612; GX 5651 5612 309; GA 309 338 299; GA 309 340 290;
GX 5611 327 5606; GX 5606 5607 304; GA 304 336 294; GX 294 300 5654; GX 294 297 5625; GA 304 347 285;
GX 307 331 5610; GX 5651 5610 5602; GX 5602 5603 301; GX 5633 5602 5609; GX 5606 5609 305; GA 301 334 293;
GX 293 5654 5627; GA 301 349 284; GX 284 285 5637; GX 290 5637 5642; GX 291 5642 5647; GX 299 5647 5652;
GX 5652 5627 351; GX 5620 5642 5619; GX 287 5637 5657; GX 288 5657 5630; GX 5630 5631 5629; GX 7112 5629 7240;
GX 7144 7240 7272; GX 7176 7272 7304; GX 7208 7304 7336; GA 305 337 292; GX 288 292 5650; GX 5654 5650 5622;
GI 351 5930; GX 7106 5930 7234; GX 7138 7234 7266; GX 7170 7266 7298; GX 7202 7298 7330; GA 306 345 296;
GX 293 296 5648; GX 5648 5650 5662; GX 296 5652 5663; GX 5656 5663 5927; GX 5649 5663 5928; GX 7108 5928 7236;
GX 7140 7236 7268; GX 7172 7268 7300; GX 7204 7300 7332; GX 5648 5647 5626; GX 7109 5927 7237; GX 7141 7237 7269;
GX 7173 7269 7301; GX 7205 7301 7333; GX 295 5662 5628; GX 5657 5628 352; GI 352 5925; GX 7111 5925 7239;
GX 7143 7239 7271; GX 7175 7271 7303; GX 7207 7303 7335; GX 5625 5626 5931; GX 7105 5931 7233; GX 7137 7233 7265;
GX 7169 7265 7297; GX 7201 7297 7329; GA 312 344 289; GX 289 5655 5618; GX 5618 5619 5617; GI 5617 5666;
GX 5666 5662 5926; GX 7110 5926 7238; GX 7142 7238 7270; GX 7174 7270 7302; GX 7206 7302 7334; GA 305 346 283;
GX 283 285 5621; GX 5621 5622 5665; GX 5665 5655 350; GI 350 5929; GX 7107 5929 7235; GX 7139 7235 7267;
GX 7171 7267 7299; GX 7203 7299 7331; GX 7201 7206 416; GX 7207 7205 5564; GX 7203 7201 5565; GX 5565 419 404;
GA 419 404 395; GX 7206 5564 5566; GX 7202 5566 406; GX 7203 5566 403; GA 418 403 399; GX 399 5565 5571;
GX 7204 7202 5567; GX 5567 5565 5533; GX 5564 5533 407; GA 416 407 394; GX 5567 7203 5532; GX 7208 5532 414;
GA 414 7208 400; GX 7208 7202 5573; GX 7203 5573 415; GX 5565 5573 412; GX 7207 415 411; GA 411 415 398;
GX 5573 5566 405; GA 412 405 397; GX 5585 412 410; GX 394 397 5570; GX 395 5570 5590; GX 398 5590 5546;
GX 7207 5546 385; GX 5571 5570 5556; GX 394 400 5576; GX 7203 5576 5591; GX 7204 7201 417; GA 417 406 396;
GX 395 396 5547; GX 396 5566 5568; GX 5547 5548 5599; GX 5599 5571 5596; GX 5564 417 409; GX 417 5585 413;
GA 413 409 402; GX 398 5596 392; GX 7208 409 408; GA 410 408 401; GX 395 401 5577; GX 7201 5577 5592;
GX 5577 5576 5555; GX 5565 5555 390; GX 5568 5556 391; GX 402 5567 5572; GX 5572 5568 5578; GX 5592 5578 393;
GA 393 392 389; GX 389 391 388; GX 389 5591 5545; GA 390 388 387; GX 387 5578 5593; GX 399 387 5540;
GX 5572 5540 5536; GX 7203 5536 5535; GX 7201 5536 5539; GX 5591 5593 386; GA 386 412 356; GX 5578 5545 384;
GA 384 385 383; GX 383 400 5543; GX 5543 397 5538; GX 383 5590 5544; GX 389 383 381; GA 391 381 380;
GX 380 388 378; GX 380 398 5575; GX 7207 5575 5583; GX 5583 5544 379].
(** aes128_ks.txt:7004-7236 *)
Definition aes_ks_file_g28 : list gate := [
GA 379 410 360; GA 386 378 377; GX 377 401 5542; GX 377 5593 5537; GX 5583 5542 5534; GX 5565 5534 5541;
GX 5538 5541 375; GA 375 407 362; GX 377 390 376; GA 376 411 357; GX 5592 5537 373; GA 373 403 367;
GA 373 418 358; GX 358 362 5582; GX 5534 5535 371; GA 371 404 363; GA 371 419 354; GX 383 391 382;
GA 382 7208 368; GX 356 368 5587; GA 375 416 353; GX 5538 5539 374; GA 374 406 364; GX 364 367 5557;
GA 379 408 369; GA 376 415 366; GX 363 366 5580; GX 5580 5582 5594; GX 5575 5596 372; GA 372 413 361;
GA 386 405 365; GX 365 368 5588; GX 365 5594 5560; GA 372 409 370; GX 364 370 5586; GX 367 370 5581;
GX 5586 5582 5554; GX 363 5586 5559; GI 5581 5552; GX 5588 5552 5563; GA 382 414 359; GX 359 5587 5550;
GA 374 417 355; GX 354 355 5569; GX 357 5569 5589; GX 5589 5560 422; GX 360 5569 5574; GX 361 5574 5579;
GX 5580 5579 5558; GX 5557 5558 5938; GX 353 355 5553; GX 358 5589 5562; GX 5553 5554 5597; GX 5597 5587 420;
GI 420 5936; GX 5552 5574 5551; GX 5550 5551 5549; GI 5549 5598; GX 369 5579 5584; GX 366 5584 5595;
GX 5584 5559 421; GI 421 5937; GX 7114 5937 7242; GX 5588 5595 5934; GX 7117 5934 7245; GX 7149 7245 7277;
GX 7115 5936 7243; GX 7147 7243 7275; GX 7179 7275 7307; GX 7211 7307 7339; GX 7146 7242 7274; GX 7178 7274 7306;
GX 5562 5563 5561; GX 7120 5561 7248; GX 7152 7248 7280; GX 7184 7280 7312; GX 7113 5938 7241; GX 7145 7241 7273;
GX 7216 7312 7344; GI 422 5932; GX 7119 5932 7247; GX 7151 7247 7279; GX 7183 7279 7311; GX 7215 7311 7343;
GX 7177 7273 7305; GX 7209 7305 7337; GX 7181 7277 7309; GX 7213 7309 7341; GX 5581 5595 5935; GX 7116 5935 7244;
GX 7148 7244 7276; GX 7180 7276 7308; GX 7212 7308 7340; GX 5598 5594 5933; GX 7210 7306 7338; GX 7118 5933 7246;
GX 7150 7246 7278; GX 7182 7278 7310; GX 7214 7310 7342; GX 7216 479 478; GA 480 478 471; GX 465 471 5509;
GX 7209 5509 5524; GX 5524 5510 463; GX 5531 5503 5528; GX 468 5528 462; GA 463 462 459; GX 459 461 458;
GX 7216 5464 484; GA 484 7216 470; GX 464 470 5508; GX 7211 5508 5523; GX 459 5523 5477; GX 5510 5477 454;
GA 454 455 453; GX 459 453 451; GX 453 461 452; GA 452 7216 438; GX 453 470 5475; GA 452 484 429;
GX 453 5522 5476; GX 5475 467 5470; GA 461 451 450; GX 450 458 448; GX 450 468 5507; GX 5507 5528 442;
GA 442 479 440; GA 442 483 431; GX 7215 5507 5515; GX 5515 5476 449; GA 449 480 430; GA 449 478 439;
GX 5509 5508 5487; GX 5497 5487 460; GA 460 458 457; GX 469 457 5472; GX 5504 5472 5468; GX 7209 5468 5471;
GX 7211 5468 5467; GX 457 5510 5525; GX 5470 5471 444; GA 444 487 425; GA 444 476 434; GX 434 440 5518;
GX 5523 5525 456; GA 456 475 435; GX 435 438 5520; GA 456 482 426; GA 456 448 447; GX 447 5525 5469;
GX 447 471 5474; GX 5515 5474 5466; GX 5524 5469 443; GA 443 473 437; GX 437 440 5513; GX 434 437 5489;
GI 5513 5484; GX 5520 5484 5495; GX 5497 5466 5473; GX 5470 5473 445; GA 445 486 423; GX 5466 5467 441;
GA 441 474 433; GX 433 5518 5491; GA 441 489 424; GX 424 425 5501; GX 430 5501 5506; GX 5484 5506 5483;
GX 431 5506 5511; GX 439 5511 5516; GX 423 425 5485; GX 426 438 5519; GX 429 5519 5482; GX 5482 5483 5481;
GI 5481 5530; GX 5516 5491 491; GI 491 5944; GX 447 460 446; GA 446 485 436; GA 446 481 427;
GX 436 5516 5527; GX 5520 5527 5941; GX 7125 5941 7253; GX 427 5501 5521; GX 433 436 5512; GX 5512 5511 5490;
GX 5489 5490 5945; GX 7121 5945 7249; GX 5513 5527 5942; GX 7124 5942 7252; GX 7156 7252 7284; GX 7188 7284 7316;
GX 7220 7316 7348; GX 7153 7249 7281; GX 7185 7281 7313; GX 7217 7313 7345; GX 7157 7253 7285; GX 7189 7285 7317;
GX 7221 7317 7349; GA 443 488 428; GX 428 5521 5494; GX 5494 5495 5493; GX 7128 5493 7256; GX 7160 7256 7288;
GX 7192 7288 7320; GX 7224 7320 7352; GX 7122 5944 7250; GX 7154 7250 7282; GX 7186 7282 7314; GX 7218 7314 7346;
GA 445 477 432; GX 428 432 5514; GX 5512 5514 5526; GX 435 5526 5492; GX 5521 5492 492; GI 492 5939;
GX 7127 5939 7255; GX 7159 7255 7287; GX 7191 7287 7319; GX 5518 5514 5486; GX 5485 5486 5529; GX 5529 5519 490;
GI 490 5943; GX 7123 5943 7251; GX 7155 7251 7283; GX 5530 5526 5940; GX 7126 5940 7254; GX 7158 7254 7286;
GX 7190 7286 7318; GX 7222 7318 7350; GX 7223 7319 7351; GX 7187 7283 7315; GX 7219 7315 7347].
(** all gates and the header (aes128_ks.txt:1-2) *)
Definition aes_ks_file_gates : list gate := concat [aes_ks_file_g0; aes_ks_file_g1; aes_ks_file_g2; aes_ks_file_g3; aes_ks_file_g4; aes_ks_file_g5; aes_ks_file_g6; aes_ks_file_g7; aes_ks_file_g8; aes_ks_file_g9; aes_ks_file_g10; aes_ks_file_g11; aes_ks_file_g12; aes_ks_file_g13; aes_ks_file_g14; aes_ks_file_g15; aes_ks_file_g16; aes_ks_file_g17; aes_ks_file_g18; aes_ks_file_g19; aes_ks_file_g20; aes_ks_file_g21; aes_ks_file_g22; aes_ks_file_g23; aes_ks_file_g24; aes_ks_file_g25; aes_ks_file_g26; aes_ks_file_g27; aes_ks_file_g28].
Definition aes_ks_file : bristol := mkBristol 7361 128 0 1408 aes_ks_file_gates.
