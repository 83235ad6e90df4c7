(** Proof hints for the netlists: for every S-box instance its eight input wires, the
    wires of the gates computing it, and its eight output wires (bit 0 first).  These
    are not trusted: P_NetCheck verifies them. *)
From Coq Require Import List NArith.
From Verif Require Import P_NetCheck.
Import ListNotations.
Local Open Scope N_scope.

Definition ks_cuts_c0 := mkCut [6072; 6071; 6070; 6069; 6068; 6067; 6066; 6065]
 [277; 275; 179; 178; 177; 265; 262; 176; 170; 264; 276; 158; 272; 278; 263; 274; 270; 271; 269; 268; 267; 195; 210; 266; 211; 273; 261; 171; 260; 259; 258; 172; 257; 256; 255; 175; 165; 254; 166; 151; 252; 196; 144; 147; 251; 253; 173; 167; 153; 152; 187; 250; 188; 249; 197; 244; 248; 247; 198; 243; 246; 150; 245; 203; 207; 204; 208; 242; 241; 240; 199; 200; 205; 233; 239; 237; 168; 231; 160; 238; 236; 235; 201; 209; 202; 234; 206; 232; 230; 229; 228; 227; 226; 162; 191; 225; 224; 155; 180; 223; 157; 186; 222; 163; 184; 221; 220; 219; 218; 217; 161; 149; 183; 189; 216; 215; 156; 193; 214; 213; 174; 169; 164; 159; 154; 148; 5696; 5695; 181; 182; 281; 280; 185; 5699; 192; 194; 145; 5694; 212; 190; 146; 279; 5693; 5698; 5697]
 [182; 5693; 5694; 5695; 5696; 5697; 5698; 5699].
Definition ks_cuts_c1 := mkCut [6064; 6063; 6062; 6061; 6060; 6059; 6058; 6057]
 [3010; 3008; 3048; 3049; 3050; 2998; 2995; 3051; 3057; 2997; 3009; 3069; 3005; 3011; 2996; 3007; 3003; 3004; 3002; 3001; 3000; 3032; 3017; 2999; 3016; 3006; 2994; 3056; 2993; 2992; 2991; 3055; 2990; 2989; 2988; 3052; 3062; 2987; 3061; 3076; 2985; 3031; 3083; 3080; 2984; 2986; 3054; 3060; 3074; 3075; 3040; 2983; 3039; 2982; 3030; 2977; 2981; 2980; 3029; 2976; 2979; 3077; 2978; 3024; 3020; 3023; 3019; 2975; 2974; 2973; 3028; 3027; 3022; 2966; 2972; 2970; 3059; 2964; 3067; 2971; 2969; 2968; 3026; 3018; 3025; 2967; 3021; 2965; 2963; 2962; 2961; 2960; 2959; 3065; 3036; 2958; 2957; 3072; 3047; 2956; 3070; 3041; 2955; 3064; 3043; 2954; 2953; 2952; 2951; 2950; 3066; 3078; 3044; 3038; 2949; 2948; 3071; 3034; 2947; 2946; 3053; 3058; 3063; 3068; 3073; 3079; 5688; 5687; 3046; 3045; 3014; 3013; 3042; 5691; 3035; 3033; 3082; 5686; 2945; 3037; 3081; 3012; 5685; 5690; 5689]
 [3045; 5685; 5686; 5687; 5688; 5689; 5690; 5691].
Definition ks_cuts_c2 := mkCut [6056; 6055; 6054; 6053; 6052; 6051; 6050; 6049]
 [2939; 2937; 3116; 3117; 3118; 2927; 2924; 3119; 3125; 2926; 2938; 3137; 2934; 2940; 2925; 2936; 2932; 2933; 2931; 2930; 2929; 3100; 3085; 2928; 3084; 2935; 2923; 3124; 2922; 2921; 2920; 3123; 2919; 2918; 2917; 3120; 3130; 2916; 3129; 3144; 2914; 3099; 3151; 3148; 2913; 2915; 3122; 3128; 3142; 3143; 3108; 2912; 3107; 2911; 3098; 2906; 2910; 2909; 3097; 2905; 2908; 3145; 2907; 3092; 3088; 3091; 3087; 2904; 2903; 2902; 3096; 3095; 3090; 2895; 2901; 2899; 3127; 2893; 3135; 2900; 2898; 2897; 3094; 3086; 3093; 2896; 3089; 2894; 2892; 2891; 2890; 2889; 2888; 3133; 3104; 2887; 2886; 3140; 3115; 2885; 3138; 3109; 2884; 3132; 3111; 2883; 2882; 2881; 2880; 2879; 3134; 3146; 3112; 3106; 2878; 2877; 3139; 3102; 2876; 2875; 3121; 3126; 3131; 3136; 3141; 3147; 5680; 5679; 3114; 3113; 2943; 2942; 3110; 5683; 3103; 3101; 3150; 5678; 2874; 3105; 3149; 2941; 5677; 5682; 5681]
 [3113; 5677; 5678; 5679; 5680; 5681; 5682; 5683].
Definition ks_cuts_c3 := mkCut [6080; 6079; 6078; 6077; 6076; 6075; 6074; 6073]
 [2868; 2866; 3184; 3185; 3186; 2856; 2853; 3187; 3193; 2855; 2867; 3205; 2863; 2869; 2854; 2865; 2861; 2862; 2860; 2859; 2858; 3168; 3153; 2857; 3152; 2864; 2852; 3192; 2851; 2850; 2849; 3191; 2848; 2847; 2846; 3188; 3198; 2845; 3197; 3212; 2843; 3167; 3219; 3216; 2842; 2844; 3190; 3196; 3210; 3211; 3176; 2841; 3175; 2840; 3166; 2835; 2839; 2838; 3165; 2834; 2837; 3213; 2836; 3160; 3156; 3159; 3155; 2833; 2832; 2831; 3164; 3163; 3158; 2824; 2830; 2828; 3195; 2822; 3203; 2829; 2827; 2826; 3162; 3154; 3161; 2825; 3157; 2823; 2821; 2820; 2819; 2818; 2817; 3201; 3172; 2816; 2815; 3208; 3183; 2814; 3206; 3177; 2813; 3200; 3179; 2812; 2811; 2810; 2809; 2808; 3202; 3214; 3180; 3174; 2807; 2806; 3207; 3170; 2805; 2804; 3189; 3194; 3199; 3204; 3209; 3215; 5672; 5671; 3182; 3181; 2872; 2871; 3178; 5675; 3171; 3169; 3218; 5670; 2803; 3173; 3217; 2870; 5669; 5674; 5673]
 [3181; 5669; 5670; 5671; 5672; 5673; 5674; 5675].
Definition ks_cuts_c4 := mkCut [6200; 6199; 6198; 6197; 6196; 6195; 6194; 6193]
 [2797; 2796; 2799; 3236; 2798; 3252; 3254; 3273; 2793; 2789; 2788; 2782; 2786; 3255; 3260; 3261; 2785; 2776; 3256; 3266; 2783; 3253; 2784; 2795; 2791; 2792; 2790; 3221; 2787; 3220; 2794; 2781; 2780; 2779; 3259; 2778; 2777; 2775; 3265; 3280; 2773; 3235; 3287; 3284; 2772; 2774; 3258; 3264; 3278; 3279; 3244; 2771; 3243; 2770; 3234; 2765; 2769; 2768; 3233; 2764; 2767; 3281; 2766; 3228; 3224; 3227; 3223; 2763; 2762; 2761; 3232; 3231; 3226; 2754; 2760; 2758; 3263; 2752; 3271; 2759; 2757; 2756; 3230; 3222; 3229; 2755; 3225; 2753; 2751; 2750; 2749; 2748; 2747; 3269; 3240; 2746; 2745; 3276; 3251; 2744; 3274; 3245; 2743; 3268; 3247; 2742; 2741; 2740; 2739; 2738; 3270; 3282; 3248; 3242; 2737; 2736; 3275; 3238; 2735; 2734; 3257; 3262; 3267; 3272; 3277; 3283; 5724; 5723; 3250; 3249; 2802; 2801; 3246; 5727; 3239; 3237; 3286; 5722; 2733; 3241; 3285; 2800; 5721; 5726; 5725]
 [3249; 5721; 5722; 5723; 5724; 5725; 5726; 5727].
Definition ks_cuts_c5 := mkCut [6192; 6191; 6190; 6189; 6188; 6187; 6186; 6185]
 [2727; 2726; 2729; 3304; 2728; 3320; 3322; 3341; 2723; 2719; 2718; 2712; 2716; 3323; 3328; 3329; 2715; 2706; 3324; 3334; 2713; 3321; 2714; 2725; 2721; 2722; 2720; 3289; 2717; 3288; 2724; 2711; 2710; 2709; 3327; 2708; 2707; 2705; 3333; 3348; 2703; 3303; 3355; 3352; 2702; 2704; 3326; 3332; 3346; 3347; 3312; 2701; 3311; 2700; 3302; 2695; 2699; 2698; 3301; 2694; 2697; 3349; 2696; 3296; 3292; 3295; 3291; 2693; 2692; 2691; 3300; 3299; 3294; 2684; 2690; 2688; 3331; 2682; 3339; 2689; 2687; 2686; 3298; 3290; 3297; 2685; 3293; 2683; 2681; 2680; 2679; 2678; 2677; 3337; 3308; 2676; 2675; 3344; 3319; 2674; 3342; 3313; 2673; 3336; 3315; 2672; 2671; 2670; 2669; 2668; 3338; 3350; 3316; 3310; 2667; 2666; 3343; 3306; 2665; 2664; 3325; 3330; 3335; 3340; 3345; 3351; 5717; 5716; 3318; 3317; 2732; 2731; 3314; 5720; 3307; 3305; 3354; 5715; 2663; 3309; 3353; 2730; 5714; 5719; 5718]
 [3317; 5714; 5715; 5716; 5717; 5718; 5719; 5720].
Definition ks_cuts_c6 := mkCut [6184; 6183; 6182; 6181; 6180; 6179; 6178; 6177]
 [2657; 2656; 2659; 3372; 2658; 3388; 3390; 3409; 2653; 2649; 2648; 2642; 2646; 3391; 3396; 3397; 2645; 2636; 3392; 3402; 2643; 3389; 2644; 2655; 2651; 2652; 2650; 3357; 2647; 3356; 2654; 2641; 2640; 2639; 3395; 2638; 2637; 2635; 3401; 3416; 2633; 3371; 3423; 3420; 2632; 2634; 3394; 3400; 3414; 3415; 3380; 2631; 3379; 2630; 3370; 2625; 2629; 2628; 3369; 2624; 2627; 3417; 2626; 3364; 3360; 3363; 3359; 2623; 2622; 2621; 3368; 3367; 3362; 2614; 2620; 2618; 3399; 2612; 3407; 2619; 2617; 2616; 3366; 3358; 3365; 2615; 3361; 2613; 2611; 2610; 2609; 2608; 2607; 3405; 3376; 2606; 2605; 3412; 3387; 2604; 3410; 3381; 2603; 3404; 3383; 2602; 2601; 2600; 2599; 2598; 3406; 3418; 3384; 3378; 2597; 2596; 3411; 3374; 2595; 2594; 3393; 3398; 3403; 3408; 3413; 3419; 5710; 5709; 3386; 3385; 2662; 2661; 3382; 5713; 3375; 3373; 3422; 5708; 2593; 3377; 3421; 2660; 5707; 5712; 5711]
 [3385; 5707; 5708; 5709; 5710; 5711; 5712; 5713].
Definition ks_cuts_c7 := mkCut [6208; 6207; 6206; 6205; 6204; 6203; 6202; 6201]
 [2588; 2586; 3456; 3457; 3458; 2576; 2573; 3459; 3465; 2575; 2587; 3477; 2583; 2589; 2574; 2585; 2581; 2582; 2580; 2579; 2578; 3440; 3425; 2577; 3424; 2584; 2572; 3464; 2571; 2570; 2569; 3463; 2568; 2567; 2566; 3460; 3470; 2565; 3469; 3484; 2563; 3439; 3491; 3488; 2562; 2564; 3462; 3468; 3482; 3483; 3448; 2561; 3447; 2560; 3438; 2555; 2559; 2558; 3437; 2554; 2557; 3485; 2556; 3432; 3428; 3431; 3427; 2553; 2552; 2551; 3436; 3435; 3430; 2544; 2550; 2548; 3467; 2542; 3475; 2549; 2547; 2546; 3434; 3426; 3433; 2545; 3429; 2543; 2541; 2540; 2539; 2538; 2537; 3473; 3444; 2536; 2535; 3480; 3455; 2534; 3478; 3449; 2533; 3472; 3451; 2532; 2531; 2530; 2529; 2528; 3474; 3486; 3452; 3446; 2527; 2526; 3479; 3442; 2525; 2524; 3461; 3466; 3471; 3476; 3481; 3487; 5703; 5702; 3454; 3453; 2592; 2591; 3450; 5706; 3443; 3441; 3490; 5701; 2523; 3445; 3489; 2590; 5700; 5705; 5704]
 [3453; 5700; 5701; 5702; 5703; 5704; 5705; 5706].
Definition ks_cuts_c8 := mkCut [6328; 6327; 6326; 6325; 6324; 6323; 6322; 6321]
 [2517; 2516; 2519; 3508; 2518; 3524; 3526; 3545; 2513; 2509; 2508; 2502; 2506; 3527; 3532; 3533; 2505; 2496; 3528; 3538; 2503; 3525; 2504; 2515; 2511; 2512; 2510; 3493; 2507; 3492; 2514; 2501; 2500; 2499; 3531; 2498; 2497; 2495; 3537; 3552; 2493; 3507; 3559; 3556; 2492; 2494; 3530; 3536; 3550; 3551; 3516; 2491; 3515; 2490; 3506; 2485; 2489; 2488; 3505; 2484; 2487; 3553; 2486; 3500; 3496; 3499; 3495; 2483; 2482; 2481; 3504; 3503; 3498; 2474; 2480; 2478; 3535; 2472; 3543; 2479; 2477; 2476; 3502; 3494; 3501; 2475; 3497; 2473; 2471; 2470; 2469; 2468; 2467; 3541; 3512; 2466; 2465; 3548; 3523; 2464; 3546; 3517; 2463; 3540; 3519; 2462; 2461; 2460; 2459; 2458; 3542; 3554; 3520; 3514; 2457; 2456; 3547; 3510; 2455; 2454; 3529; 3534; 3539; 3544; 3549; 3555; 5752; 5751; 3522; 3521; 2522; 2521; 3518; 5755; 3511; 3509; 3558; 5750; 2453; 3513; 3557; 2520; 5749; 5754; 5753]
 [3521; 5749; 5750; 5751; 5752; 5753; 5754; 5755].
Definition ks_cuts_c9 := mkCut [6320; 6319; 6318; 6317; 6316; 6315; 6314; 6313]
 [2447; 2446; 2449; 3576; 2448; 3592; 3594; 3613; 2443; 2439; 2438; 2432; 2436; 3595; 3600; 3601; 2435; 2426; 3596; 3606; 2433; 3593; 2434; 2445; 2441; 2442; 2440; 3561; 2437; 3560; 2444; 2431; 2430; 2429; 3599; 2428; 2427; 2425; 3605; 3620; 2423; 3575; 3627; 3624; 2422; 2424; 3598; 3604; 3618; 3619; 3584; 2421; 3583; 2420; 3574; 2415; 2419; 2418; 3573; 2414; 2417; 3621; 2416; 3568; 3564; 3567; 3563; 2413; 2412; 2411; 3572; 3571; 3566; 2404; 2410; 2408; 3603; 2402; 3611; 2409; 2407; 2406; 3570; 3562; 3569; 2405; 3565; 2403; 2401; 2400; 2399; 2398; 2397; 3609; 3580; 2396; 2395; 3616; 3591; 2394; 3614; 3585; 2393; 3608; 3587; 2392; 2391; 2390; 2389; 2388; 3610; 3622; 3588; 3582; 2387; 2386; 3615; 3578; 2385; 2384; 3597; 3602; 3607; 3612; 3617; 3623; 5745; 5744; 3590; 3589; 2452; 2451; 3586; 5748; 3579; 3577; 3626; 5743; 2383; 3581; 3625; 2450; 5742; 5747; 5746]
 [3589; 5742; 5743; 5744; 5745; 5746; 5747; 5748].
Definition ks_cuts_c10 := mkCut [6312; 6311; 6310; 6309; 6308; 6307; 6306; 6305]
 [2377; 2376; 2379; 3644; 2378; 3660; 3662; 3681; 2373; 2369; 2368; 2362; 2366; 3663; 3668; 3669; 2365; 2356; 3664; 3674; 2363; 3661; 2364; 2375; 2371; 2372; 2370; 3629; 2367; 3628; 2374; 2361; 2360; 2359; 3667; 2358; 2357; 2355; 3673; 3688; 2353; 3643; 3695; 3692; 2352; 2354; 3666; 3672; 3686; 3687; 3652; 2351; 3651; 2350; 3642; 2345; 2349; 2348; 3641; 2344; 2347; 3689; 2346; 3636; 3632; 3635; 3631; 2343; 2342; 2341; 3640; 3639; 3634; 2334; 2340; 2338; 3671; 2332; 3679; 2339; 2337; 2336; 3638; 3630; 3637; 2335; 3633; 2333; 2331; 2330; 2329; 2328; 2327; 3677; 3648; 2326; 2325; 3684; 3659; 2324; 3682; 3653; 2323; 3676; 3655; 2322; 2321; 2320; 2319; 2318; 3678; 3690; 3656; 3650; 2317; 2316; 3683; 3646; 2315; 2314; 3665; 3670; 3675; 3680; 3685; 3691; 5738; 5737; 3658; 3657; 2382; 2381; 3654; 5741; 3647; 3645; 3694; 5736; 2313; 3649; 3693; 2380; 5735; 5740; 5739]
 [3657; 5735; 5736; 5737; 5738; 5739; 5740; 5741].
Definition ks_cuts_c11 := mkCut [6336; 6335; 6334; 6333; 6332; 6331; 6330; 6329]
 [2307; 2306; 2309; 3712; 2308; 3728; 3730; 3749; 2303; 2299; 2298; 2292; 2296; 3731; 3736; 3737; 2295; 2286; 3732; 3742; 2293; 3729; 2294; 2305; 2301; 2302; 2300; 3697; 2297; 3696; 2304; 2291; 2290; 2289; 3735; 2288; 2287; 2285; 3741; 3756; 2283; 3711; 3763; 3760; 2282; 2284; 3734; 3740; 3754; 3755; 3720; 2281; 3719; 2280; 3710; 2275; 2279; 2278; 3709; 2274; 2277; 3757; 2276; 3704; 3700; 3703; 3699; 2273; 2272; 2271; 3708; 3707; 3702; 2264; 2270; 2268; 3739; 2262; 3747; 2269; 2267; 2266; 3706; 3698; 3705; 2265; 3701; 2263; 2261; 2260; 2259; 2258; 2257; 3745; 3716; 2256; 2255; 3752; 3727; 2254; 3750; 3721; 2253; 3744; 3723; 2252; 2251; 2250; 2249; 2248; 3746; 3758; 3724; 3718; 2247; 2246; 3751; 3714; 2245; 2244; 3733; 3738; 3743; 3748; 3753; 3759; 5731; 5730; 3726; 3725; 2312; 2311; 3722; 5734; 3715; 3713; 3762; 5729; 2243; 3717; 3761; 2310; 5728; 5733; 5732]
 [3725; 5728; 5729; 5730; 5731; 5732; 5733; 5734].
Definition ks_cuts_c12 := mkCut [6456; 6455; 6454; 6453; 6452; 6451; 6450; 6449]
 [2237; 2236; 2239; 3780; 2238; 3796; 3798; 3817; 2233; 2229; 2228; 2222; 2226; 3799; 3804; 3805; 2225; 2216; 3800; 3810; 2223; 3797; 2224; 2235; 2231; 2232; 2230; 3765; 2227; 3764; 2234; 2221; 2220; 2219; 3803; 2218; 2217; 2215; 3809; 3824; 2213; 3779; 3831; 3828; 2212; 2214; 3802; 3808; 3822; 3823; 3788; 2211; 3787; 2210; 3778; 2205; 2209; 2208; 3777; 2204; 2207; 3825; 2206; 3772; 3768; 3771; 3767; 2203; 2202; 2201; 3776; 3775; 3770; 2194; 2200; 2198; 3807; 2192; 3815; 2199; 2197; 2196; 3774; 3766; 3773; 2195; 3769; 2193; 2191; 2190; 2189; 2188; 2187; 3813; 3784; 2186; 2185; 3820; 3795; 2184; 3818; 3789; 2183; 3812; 3791; 2182; 2181; 2180; 2179; 2178; 3814; 3826; 3792; 3786; 2177; 2176; 3819; 3782; 2175; 2174; 3801; 3806; 3811; 3816; 3821; 3827; 5780; 5779; 3794; 3793; 2242; 2241; 3790; 5783; 3783; 3781; 3830; 5778; 2173; 3785; 3829; 2240; 5777; 5782; 5781]
 [3793; 5777; 5778; 5779; 5780; 5781; 5782; 5783].
Definition ks_cuts_c13 := mkCut [6448; 6447; 6446; 6445; 6444; 6443; 6442; 6441]
 [2167; 2166; 2169; 3848; 2168; 3864; 3866; 3885; 2163; 2159; 2158; 2152; 2156; 3867; 3872; 3873; 2155; 2146; 3868; 3878; 2153; 3865; 2154; 2165; 2161; 2162; 2160; 3833; 2157; 3832; 2164; 2151; 2150; 2149; 3871; 2148; 2147; 2145; 3877; 3892; 2143; 3847; 3899; 3896; 2142; 2144; 3870; 3876; 3890; 3891; 3856; 2141; 3855; 2140; 3846; 2135; 2139; 2138; 3845; 2134; 2137; 3893; 2136; 3840; 3836; 3839; 3835; 2133; 2132; 2131; 3844; 3843; 3838; 2124; 2130; 2128; 3875; 2122; 3883; 2129; 2127; 2126; 3842; 3834; 3841; 2125; 3837; 2123; 2121; 2120; 2119; 2118; 2117; 3881; 3852; 2116; 2115; 3888; 3863; 2114; 3886; 3857; 2113; 3880; 3859; 2112; 2111; 2110; 2109; 2108; 3882; 3894; 3860; 3854; 2107; 2106; 3887; 3850; 2105; 2104; 3869; 3874; 3879; 3884; 3889; 3895; 5773; 5772; 3862; 3861; 2172; 2171; 3858; 5776; 3851; 3849; 3898; 5771; 2103; 3853; 3897; 2170; 5770; 5775; 5774]
 [3861; 5770; 5771; 5772; 5773; 5774; 5775; 5776].
Definition ks_cuts_c14 := mkCut [6440; 6439; 6438; 6437; 6436; 6435; 6434; 6433]
 [2096; 3935; 2097; 2099; 3916; 3941; 3933; 2084; 2095; 2092; 3901; 3900; 2094; 2080; 2075; 2098; 2091; 3932; 3934; 2086; 2083; 2085; 3953; 2093; 2090; 2089; 2088; 2087; 2082; 3940; 2081; 3945; 3960; 2079; 3939; 2078; 2077; 2076; 3936; 3946; 2073; 3915; 3967; 3964; 2072; 2074; 3938; 3944; 3958; 3959; 3924; 2071; 3923; 2070; 3914; 2065; 2069; 2068; 3913; 2064; 2067; 3961; 2066; 3908; 3904; 3907; 3903; 2063; 2062; 2061; 3912; 3911; 3906; 2054; 2060; 2058; 3943; 2052; 3951; 2059; 2057; 2056; 3910; 3902; 3909; 2055; 3905; 2053; 2051; 2050; 2049; 2048; 2047; 3949; 3920; 2046; 2045; 3956; 3931; 2044; 3954; 3925; 2043; 3948; 3927; 2042; 2041; 2040; 2039; 2038; 3950; 3962; 3928; 3922; 2037; 2036; 3955; 3918; 2035; 2034; 3937; 3942; 3947; 3952; 3957; 3963; 5766; 5765; 3930; 3929; 2102; 2101; 3926; 5769; 3919; 3917; 3966; 5764; 2033; 3921; 3965; 2100; 5763; 5768; 5767]
 [3929; 5763; 5764; 5765; 5766; 5767; 5768; 5769].
Definition ks_cuts_c15 := mkCut [6464; 6463; 6462; 6461; 6460; 6459; 6458; 6457]
 [4021; 2028; 2026; 4001; 4003; 2027; 2023; 2029; 2014; 3969; 3968; 2005; 4000; 4002; 2016; 2013; 2019; 3984; 2017; 2012; 4008; 2009; 4007; 2006; 4004; 4014; 3983; 4035; 4032; 2004; 2018; 4009; 2015; 2025; 2021; 2022; 2020; 2024; 2011; 4013; 4028; 2003; 2010; 4012; 4027; 3991; 2000; 2008; 2002; 2007; 4006; 4026; 3992; 2001; 3982; 1995; 1999; 1998; 3981; 1994; 1997; 4029; 1996; 3976; 3972; 3975; 3971; 1993; 1992; 1991; 3980; 3979; 3974; 1984; 1990; 1988; 4011; 1982; 4019; 1989; 1987; 1986; 3978; 3970; 3977; 1985; 3973; 1983; 1981; 1980; 1979; 1978; 1977; 4017; 3988; 1976; 1975; 4024; 3999; 1974; 4022; 3993; 1973; 4016; 3995; 1972; 1971; 1970; 1969; 1968; 4018; 4030; 3996; 3990; 1967; 1966; 4023; 3986; 1965; 1964; 4005; 4010; 4015; 4020; 4025; 4031; 5759; 5758; 3998; 3997; 2032; 2031; 3994; 5762; 3987; 3985; 4034; 5757; 1963; 3989; 4033; 2030; 5756; 5761; 5760]
 [3997; 5756; 5757; 5758; 5759; 5760; 5761; 5762].
Definition ks_cuts_c16 := mkCut [6584; 6583; 6582; 6581; 6580; 6579; 6578; 6577]
 [1957; 1956; 1959; 4052; 1958; 4068; 4070; 4089; 1953; 1949; 1948; 1942; 1946; 4071; 4076; 4077; 1945; 1936; 4072; 4082; 1943; 4069; 1944; 1955; 1951; 1952; 1950; 4037; 1947; 4036; 1954; 1941; 1940; 1939; 4075; 1938; 1937; 1935; 4081; 4096; 1933; 4051; 4103; 4100; 1932; 1934; 4074; 4080; 4094; 4095; 4060; 1931; 4059; 1930; 4050; 1925; 1929; 1928; 4049; 1924; 1927; 4097; 1926; 4044; 4040; 4043; 4039; 1923; 1922; 1921; 4048; 4047; 4042; 1914; 1920; 1918; 4079; 1912; 4087; 1919; 1917; 1916; 4046; 4038; 4045; 1915; 4041; 1913; 1911; 1910; 1909; 1908; 1907; 4085; 4056; 1906; 1905; 4092; 4067; 1904; 4090; 4061; 1903; 4084; 4063; 1902; 1901; 1900; 1899; 1898; 4086; 4098; 4064; 4058; 1897; 1896; 4091; 4054; 1895; 1894; 4073; 4078; 4083; 4088; 4093; 4099; 5808; 5807; 4066; 4065; 1962; 1961; 4062; 5811; 4055; 4053; 4102; 5806; 1893; 4057; 4101; 1960; 5805; 5810; 5809]
 [4065; 5805; 5806; 5807; 5808; 5809; 5810; 5811].
Definition ks_cuts_c17 := mkCut [6576; 6575; 6574; 6573; 6572; 6571; 6570; 6569]
 [4137; 1886; 1888; 4157; 4139; 1887; 1883; 1889; 1874; 4105; 4104; 1865; 4145; 1885; 1881; 1882; 1880; 1884; 1870; 1868; 4136; 4138; 1876; 1873; 1875; 1879; 1878; 4120; 1877; 1872; 4144; 1871; 4149; 4164; 1869; 4143; 1867; 1866; 4140; 4150; 1863; 4119; 4171; 4168; 1862; 1864; 4142; 4148; 4162; 4163; 4128; 1861; 4127; 1860; 4118; 1855; 1859; 1858; 4117; 1854; 1857; 4165; 1856; 4112; 4108; 4111; 4107; 1853; 1852; 1851; 4116; 4115; 4110; 1844; 1850; 1848; 4147; 1842; 4155; 1849; 1847; 1846; 4114; 4106; 4113; 1845; 4109; 1843; 1841; 1840; 1839; 1838; 1837; 4153; 4124; 1836; 1835; 4160; 4135; 1834; 4158; 4129; 1833; 4152; 4131; 1832; 1831; 1830; 1829; 1828; 4154; 4166; 4132; 4126; 1827; 1826; 4159; 4122; 1825; 1824; 4141; 4146; 4151; 4156; 4161; 4167; 5801; 5800; 4134; 4133; 1892; 1891; 4130; 5804; 4123; 4121; 4170; 5799; 1823; 4125; 4169; 1890; 5798; 5803; 5802]
 [4133; 5798; 5799; 5800; 5801; 5802; 5803; 5804].
Definition ks_cuts_c18 := mkCut [6568; 6567; 6566; 6565; 6564; 6563; 6562; 6561]
 [4213; 1815; 1811; 1798; 4207; 4172; 1814; 1800; 4204; 4206; 1806; 1803; 1805; 4225; 1819; 4188; 1818; 1816; 4205; 1804; 1817; 1813; 1812; 1810; 1809; 1808; 4173; 1807; 1802; 4212; 1801; 1799; 4211; 1797; 1796; 4208; 4218; 1795; 4217; 4232; 1793; 4187; 4239; 4236; 1792; 1794; 4210; 4216; 4230; 4231; 4196; 1791; 4195; 1790; 4186; 1785; 1789; 1788; 4185; 1784; 1787; 4233; 1786; 4180; 4176; 4179; 4175; 1783; 1782; 1781; 4184; 4183; 4178; 1774; 1780; 1778; 4215; 1772; 4223; 1779; 1777; 1776; 4182; 4174; 4181; 1775; 4177; 1773; 1771; 1770; 1769; 1768; 1767; 4221; 4192; 1766; 1765; 4228; 4203; 1764; 4226; 4197; 1763; 4220; 4199; 1762; 1761; 1760; 1759; 1758; 4222; 4234; 4200; 4194; 1757; 1756; 4227; 4190; 1755; 1754; 4209; 4214; 4219; 4224; 4229; 4235; 5794; 5793; 4202; 4201; 1822; 1821; 4198; 5797; 4191; 4189; 4238; 5792; 1753; 4193; 4237; 1820; 5791; 5796; 5795]
 [4201; 5791; 5792; 5793; 5794; 5795; 5796; 5797].
Definition ks_cuts_c19 := mkCut [6592; 6591; 6590; 6589; 6588; 6587; 6586; 6585]
 [4293; 1749; 1748; 1746; 4273; 1734; 1747; 1743; 1725; 4275; 4241; 4240; 4272; 4274; 1736; 1733; 1739; 4256; 1737; 1732; 4280; 1729; 4279; 1726; 4276; 4286; 4255; 4307; 4304; 1724; 1738; 4281; 1735; 1745; 1741; 1742; 1740; 1744; 1731; 4285; 4300; 1723; 1730; 4284; 4299; 4263; 1720; 1728; 1722; 1727; 4278; 4298; 4264; 1721; 4254; 1715; 1719; 1718; 4253; 1714; 1717; 4301; 1716; 4248; 4244; 4247; 4243; 1713; 1712; 1711; 4252; 4251; 4246; 1704; 1710; 1708; 4283; 1702; 4291; 1709; 1707; 1706; 4250; 4242; 4249; 1705; 4245; 1703; 1701; 1700; 1699; 1698; 1697; 4289; 4260; 1696; 1695; 4296; 4271; 1694; 4294; 4265; 1693; 4288; 4267; 1692; 1691; 1690; 1689; 1688; 4290; 4302; 4268; 4262; 1687; 1686; 4295; 4258; 1685; 1684; 4277; 4282; 4287; 4292; 4297; 4303; 5787; 5786; 4270; 4269; 1752; 1751; 4266; 5790; 4259; 4257; 4306; 5785; 1683; 4261; 4305; 1750; 5784; 5789; 5788]
 [4269; 5784; 5785; 5786; 5787; 5788; 5789; 5790].
Definition ks_cuts_c20 := mkCut [6712; 6711; 6710; 6709; 6708; 6707; 6706; 6705]
 [4341; 1678; 4343; 1677; 4309; 4308; 4340; 1669; 1667; 1676; 4342; 1666; 1663; 4361; 1673; 1679; 1664; 4324; 1662; 4348; 1659; 4347; 1656; 4344; 4354; 1655; 4323; 4375; 4372; 1654; 1668; 4349; 1665; 1675; 1671; 1672; 1670; 1674; 1661; 4353; 4368; 1653; 1660; 4352; 4367; 4331; 1650; 1658; 1652; 1657; 4346; 4366; 4332; 1651; 4322; 1645; 1649; 1648; 4321; 1644; 1647; 4369; 1646; 4316; 4312; 4315; 4311; 1643; 1642; 1641; 4320; 4319; 4314; 1634; 1640; 1638; 4351; 1632; 4359; 1639; 1637; 1636; 4318; 4310; 4317; 1635; 4313; 1633; 1631; 1630; 1629; 1628; 1627; 4357; 4328; 1626; 1625; 4364; 4339; 1624; 4362; 4333; 1623; 4356; 4335; 1622; 1621; 1620; 1619; 1618; 4358; 4370; 4336; 4330; 1617; 1616; 4363; 4326; 1615; 1614; 4345; 4350; 4355; 4360; 4365; 4371; 5837; 5836; 4338; 4337; 1682; 1681; 4334; 5840; 4327; 4325; 4374; 5835; 1613; 4329; 4373; 1680; 5834; 5839; 5838]
 [4337; 5834; 5835; 5836; 5837; 5838; 5839; 5840].
Definition ks_cuts_c21 := mkCut [6704; 6703; 6702; 6701; 6700; 6699; 6698; 6697]
 [1606; 1608; 4429; 4408; 4410; 1596; 4392; 4411; 1607; 1603; 1609; 1599; 1592; 4416; 1586; 4412; 4422; 1598; 4417; 1595; 4409; 1594; 1605; 1601; 1585; 4391; 4443; 4377; 1597; 4376; 1604; 1590; 1584; 4420; 4435; 1588; 1593; 1589; 4415; 4440; 1582; 1602; 1587; 4414; 4400; 1581; 1600; 1591; 4421; 4436; 1583; 1579; 1578; 4389; 1574; 4434; 4390; 1575; 1573; 4388; 1571; 1570; 4419; 4427; 1569; 1550; 1559; 1568; 4387; 4382; 1572; 1558; 1549; 1562; 1551; 1560; 4399; 1580; 1577; 4384; 4380; 4383; 1564; 1545; 4437; 4379; 1554; 4430; 1576; 1567; 1546; 4386; 4378; 4381; 4385; 1565; 1543; 1561; 1544; 4413; 4418; 4423; 4428; 1553; 4403; 1611; 5832; 1563; 1557; 4425; 4396; 4395; 1548; 4401; 1552; 4426; 4398; 4431; 4394; 4393; 4397; 4441; 1610; 5831; 4442; 1566; 1556; 4424; 4439; 5830; 4402; 4438; 5833; 5828; 1547; 4433; 4406; 1555; 4404; 1612; 5827; 4432; 4407; 4405; 5829]
 [4405; 5827; 5828; 5829; 5830; 5831; 5832; 5833].
Definition ks_cuts_c22 := mkCut [6696; 6695; 6694; 6693; 6692; 6691; 6690; 6689]
 [4476; 4478; 1523; 4497; 1539; 4460; 1538; 1536; 4477; 1524; 1537; 1533; 1529; 1528; 1522; 1519; 4483; 1515; 1526; 4485; 1532; 1530; 1516; 4459; 4480; 4511; 4508; 1521; 4489; 4504; 1535; 1531; 1518; 1512; 1525; 1517; 4479; 4444; 4445; 4484; 4490; 1513; 1534; 1520; 1509; 1527; 1514; 4482; 4488; 4468; 4502; 1511; 1508; 4467; 1510; 1507; 4505; 4452; 4448; 4451; 4447; 4458; 1505; 4503; 1506; 4457; 1504; 1485; 1503; 1501; 4456; 1500; 1498; 1497; 1496; 1486; 4449; 1493; 1487; 4487; 4495; 1492; 1490; 1499; 1489; 1481; 1480; 1478; 1477; 1476; 4454; 4446; 4453; 1491; 1483; 4492; 1474; 4493; 4464; 4455; 4450; 1494; 1495; 1484; 4498; 4471; 4469; 1482; 4494; 4506; 4466; 4472; 1475; 1473; 4465; 4509; 1502; 1488; 4499; 1540; 4500; 5823; 4475; 1479; 4462; 4481; 4486; 4491; 4496; 4507; 1541; 4470; 5826; 5821; 4463; 4501; 1542; 4474; 4473; 4461; 5824; 4510; 5819; 5822; 5820]
 [4473; 5819; 5820; 5821; 5822; 5823; 5824; 5826].
Definition ks_cuts_c23 := mkCut [6720; 6719; 6718; 6717; 6716; 6715; 6714; 6713]
 [4544; 4547; 4553; 4546; 1456; 1455; 4565; 1469; 4528; 1453; 1465; 1461; 4512; 1464; 1450; 1448; 1467; 1459; 1446; 1468; 1449; 1463; 1452; 4552; 1466; 1458; 4548; 4558; 4545; 1454; 4551; 1445; 4527; 4579; 1462; 1460; 1451; 1447; 4557; 4572; 1443; 4513; 1457; 1444; 4556; 4571; 4550; 4570; 4526; 1435; 4536; 1441; 4535; 1440; 4576; 1442; 1439; 4525; 1438; 1437; 4573; 1436; 1415; 1406; 1434; 1433; 1431; 4523; 4518; 1430; 4524; 4520; 4516; 4515; 4555; 4519; 1424; 1414; 1422; 1420; 4566; 1405; 1411; 4563; 1429; 1419; 1410; 1432; 1409; 1418; 4567; 4530; 4568; 1428; 1427; 1426; 1407; 4522; 4517; 4514; 4521; 1425; 1412; 1421; 1404; 1416; 4549; 4554; 4559; 4564; 4575; 5814; 1413; 4539; 1471; 5817; 4560; 4538; 1403; 4533; 4569; 1423; 1417; 4561; 4532; 4531; 4529; 1408; 4542; 4537; 5818; 5815; 4562; 4574; 4540; 1472; 5812; 4534; 4578; 5813; 4577; 1470; 5816; 4543; 4541]
 [4541; 5812; 5813; 5814; 5815; 5816; 5817; 5818].
Definition ks_cuts_c24 := mkCut [6840; 6839; 6838; 6837; 6836; 6835; 6834; 6833]
 [4615; 4580; 1397; 4613; 4581; 1396; 1399; 1384; 1375; 4633; 1393; 4621; 1392; 1390; 1395; 1391; 4596; 4612; 1387; 1389; 1374; 1382; 1388; 1381; 4625; 4640; 4614; 1386; 1376; 1385; 4616; 4595; 4620; 4626; 1373; 4647; 1378; 1377; 4618; 4638; 4594; 1365; 1394; 1380; 4624; 4603; 1370; 1398; 4639; 1383; 1379; 4619; 4604; 1371; 4644; 1372; 1369; 4593; 1364; 1363; 1361; 1360; 4592; 1362; 1348; 4623; 1352; 1341; 1350; 1339; 4591; 4586; 1368; 1367; 4641; 1358; 4588; 1366; 1336; 1357; 4590; 4635; 1345; 1356; 1337; 1346; 4636; 4584; 4587; 4583; 1354; 1335; 1344; 4634; 4598; 4585; 1353; 1347; 4605; 1338; 4629; 4600; 4611; 4631; 4582; 1351; 1334; 4589; 1355; 1342; 4630; 4617; 4602; 1359; 1340; 1349; 1343; 4628; 4642; 4608; 4607; 4637; 1402; 4610; 4609; 5862; 1333; 4601; 4645; 1400; 5866; 4622; 4627; 4632; 4599; 4597; 4646; 5863; 1401; 5867; 4606; 5868; 4643; 5865; 5864]
 [4609; 5862; 5863; 5864; 5865; 5866; 5867; 5868].
Definition ks_cuts_c25 := mkCut [6832; 6831; 6830; 6829; 6828; 6827; 6826; 6825]
 [4689; 4680; 1328; 4683; 1327; 1319; 1318; 4682; 1315; 4701; 1323; 1312; 4688; 1316; 1306; 4684; 4694; 4664; 1326; 1329; 4681; 1314; 4648; 1324; 1322; 1320; 1311; 1325; 1321; 1308; 1313; 1309; 4687; 1307; 4649; 1317; 1304; 4686; 4672; 1301; 1310; 4692; 4707; 1305; 4706; 4663; 4662; 4693; 4671; 1300; 4708; 1303; 4715; 4712; 1295; 1302; 1299; 1298; 4661; 1294; 1297; 4656; 4652; 4651; 4655; 4709; 1296; 1266; 1275; 1293; 1291; 1292; 1269; 1278; 4704; 4703; 4660; 4666; 4659; 4654; 1284; 1274; 1265; 1290; 1288; 4691; 4699; 1282; 1271; 1280; 1287; 1286; 1276; 1267; 4658; 1289; 1270; 4702; 4650; 4657; 1285; 1272; 1263; 4669; 4653; 1283; 1268; 4698; 4670; 4713; 1330; 5859; 1277; 4697; 4668; 4679; 1281; 1264; 4685; 4705; 4678; 4677; 1273; 4675; 4696; 4710; 4690; 4695; 4674; 4667; 4665; 4714; 5856; 4676; 1332; 5855; 4673; 5861; 1279; 4700; 1331; 5860; 4711; 5858; 5857]
 [4677; 5855; 5856; 5857; 5858; 5859; 5860; 5861].
Definition ks_cuts_c26 := mkCut [6824; 6823; 6822; 6821; 6820; 6819; 6818; 6817]
 [1257; 1258; 4748; 1249; 4732; 4750; 1256; 4769; 1253; 1242; 1259; 4749; 1243; 1239; 4755; 1244; 1235; 1248; 4751; 4717; 4716; 1247; 1254; 1240; 1234; 4756; 1246; 1236; 4731; 4783; 4752; 4757; 4760; 1245; 4762; 1255; 1251; 1238; 1252; 1237; 1250; 1241; 4761; 4754; 4740; 4776; 1233; 4774; 4730; 1225; 4775; 4739; 1230; 4780; 1232; 1229; 4729; 1224; 1223; 4727; 4728; 4722; 1221; 1231; 1220; 4759; 1222; 1208; 1199; 1212; 1210; 1201; 4767; 1219; 1200; 1209; 1228; 1227; 4724; 4720; 4723; 1214; 1204; 1195; 1218; 4719; 4770; 4777; 1226; 1196; 1205; 1217; 4726; 4718; 4725; 1215; 1193; 4737; 4721; 1202; 1216; 1197; 1206; 4771; 4772; 1211; 1203; 1194; 4753; 4758; 4763; 4764; 4742; 4768; 4773; 4779; 5850; 4743; 1261; 5853; 4734; 1213; 1207; 1198; 4765; 5851; 4766; 4738; 4781; 1260; 5852; 4746; 4741; 5854; 4778; 4744; 4736; 4735; 4747; 4733; 4782; 5849; 4745; 1262; 5848]
 [4745; 5848; 5849; 5850; 5851; 5852; 5853; 5854].
Definition ks_cuts_c27 := mkCut [6848; 6847; 6846; 6845; 6844; 6843; 6842; 6841]
 [1189; 4819; 4784; 4800; 4825; 1185; 1184; 1170; 4816; 4837; 1181; 1168; 4818; 1175; 1173; 1176; 4817; 4785; 1182; 1167; 1177; 1180; 1188; 1169; 4823; 1186; 1164; 4828; 4822; 4843; 4808; 1174; 1165; 4842; 4798; 1155; 1187; 1179; 1166; 4799; 4851; 4848; 1162; 1178; 1171; 4820; 1161; 1183; 1172; 4824; 4830; 4829; 4844; 4807; 1160; 1163; 1159; 4797; 1158; 1157; 4792; 4788; 4845; 1154; 1153; 4796; 4795; 4790; 4791; 1144; 1134; 4787; 1125; 1156; 1126; 1135; 1152; 1138; 1129; 1151; 1150; 4827; 4835; 1149; 1139; 1130; 1148; 1147; 4794; 4786; 1141; 4793; 1145; 1123; 4805; 4789; 1143; 1137; 4809; 1133; 1132; 1128; 4834; 1124; 4821; 4826; 1142; 1140; 4833; 1131; 4831; 4836; 4804; 4803; 1146; 1127; 1136; 4832; 4810; 5847; 4846; 4812; 4839; 4802; 4801; 4850; 5842; 4841; 1192; 5841; 4814; 4838; 4811; 1191; 4806; 4849; 1190; 5845; 5846; 4840; 4847; 5843; 5844; 4815; 4813]
 [4813; 5841; 5842; 5843; 5844; 5845; 5846; 5847].
Definition ks_cuts_c28 := mkCut [6968; 6967; 6966; 6965; 6964; 6963; 6962; 6961]
 [1118; 4885; 4884; 4868; 4886; 1106; 4905; 1103; 1099; 4891; 1116; 1119; 1104; 1095; 4887; 4853; 1107; 1094; 1117; 1113; 1109; 1102; 4892; 1096; 4888; 4898; 4867; 4919; 4916; 4852; 1108; 4893; 1115; 1111; 1112; 1105; 1097; 4890; 4876; 1091; 1098; 1092; 1110; 1101; 4897; 4912; 1093; 1089; 4910; 1088; 4866; 1085; 1114; 1100; 4896; 4875; 1090; 4911; 4865; 1087; 4913; 1086; 1065; 1056; 1084; 1083; 1081; 1082; 1059; 4864; 1068; 4908; 1080; 4895; 1072; 1078; 1077; 1076; 1057; 1070; 4857; 1073; 1058; 1067; 4862; 4901; 4872; 4883; 4903; 1079; 1069; 4907; 1066; 4870; 4863; 4858; 4854; 4861; 1075; 1053; 4860; 4856; 4859; 1074; 1055; 4873; 1064; 4877; 4906; 4855; 1071; 1054; 1063; 4879; 4900; 4889; 4909; 4882; 4881; 1062; 4902; 4914; 4874; 4880; 1122; 5890; 4917; 1120; 5894; 1061; 1060; 4894; 4899; 4904; 4915; 1121; 5895; 5892; 5893; 4878; 5896; 4871; 4869; 4918; 5891]
 [4881; 5890; 5891; 5892; 5893; 5894; 5895; 5896].
Definition ks_cuts_c29 := mkCut [6960; 6959; 6958; 6957; 6956; 6955; 6954; 6953]
 [4953; 4961; 1045; 1042; 1047; 4955; 4921; 4920; 1044; 1030; 1046; 1049; 1034; 1025; 4936; 1041; 1028; 1048; 4952; 4973; 1040; 1037; 1024; 4964; 4979; 1043; 4954; 1036; 1035; 1027; 4958; 4978; 4934; 1015; 1039; 1032; 4960; 1038; 1031; 4965; 4980; 4943; 1020; 1033; 1029; 4959; 4944; 1026; 4956; 1021; 4966; 1023; 4935; 4987; 4984; 1022; 1019; 1018; 1017; 4981; 1016; 995; 986; 4928; 4924; 4923; 4927; 4933; 1014; 1013; 4932; 1011; 1012; 998; 4975; 4976; 989; 4938; 4931; 4926; 1004; 994; 985; 1010; 1008; 1007; 4930; 4925; 1003; 988; 997; 1006; 996; 987; 4945; 4963; 1002; 991; 4971; 1009; 999; 4922; 4929; 1005; 983; 992; 4970; 4941; 1001; 984; 993; 4968; 4982; 4957; 4977; 4950; 4948; 1052; 5883; 990; 4962; 4967; 4972; 4983; 5885; 4946; 5889; 1000; 4969; 4940; 4939; 4951; 4949; 4937; 5886; 4986; 5884; 4974; 4947; 4942; 4985; 1050; 5887; 1051; 5888]
 [4949; 5883; 5884; 5885; 5886; 5887; 5888; 5889].
Definition ks_cuts_c30 := mkCut [6952; 6951; 6950; 6949; 6948; 6947; 6946; 6945]
 [5029; 975; 971; 958; 5023; 4988; 974; 960; 5020; 978; 977; 5021; 4989; 969; 968; 967; 972; 979; 5022; 966; 963; 959; 956; 5024; 5004; 976; 954; 5032; 5027; 5041; 973; 962; 5028; 970; 5047; 961; 964; 955; 5033; 5003; 5055; 5048; 5052; 952; 5011; 950; 965; 957; 5026; 5012; 5046; 5002; 951; 945; 5034; 953; 949; 948; 947; 4996; 4992; 4991; 5001; 944; 5049; 946; 916; 925; 4995; 943; 4999; 5000; 942; 928; 5043; 5044; 4994; 941; 940; 938; 937; 4998; 4993; 5031; 5039; 932; 921; 930; 939; 920; 929; 933; 918; 934; 924; 915; 5042; 936; 917; 926; 4990; 931; 914; 923; 5036; 4997; 935; 913; 922; 5015; 5009; 927; 5013; 5037; 5008; 5019; 919; 5006; 5038; 5050; 5010; 5053; 5016; 980; 5880; 5025; 5030; 5035; 5040; 5051; 5879; 5045; 982; 5876; 5878; 5014; 5882; 981; 5881; 5018; 5017; 5007; 5005; 5054; 5877]
 [5017; 5876; 5877; 5878; 5879; 5880; 5881; 5882].
Definition ks_cuts_c31 := mkCut [6976; 6975; 6974; 6973; 6972; 6971; 6970; 6969]
 [5091; 5056; 5072; 909; 5088; 5090; 896; 893; 5109; 5097; 895; 904; 890; 905; 901; 888; 908; 889; 5089; 5057; 897; 902; 900; 887; 906; 884; 5100; 5115; 5095; 907; 903; 886; 899; 898; 891; 892; 5096; 894; 885; 5071; 5123; 5120; 882; 5101; 5079; 5116; 880; 5092; 5102; 883; 879; 5069; 874; 5094; 5080; 881; 878; 877; 5117; 5064; 5060; 5063; 5059; 5114; 5070; 875; 873; 871; 5067; 5062; 864; 5068; 870; 854; 845; 5099; 868; 862; 851; 860; 5110; 5107; 869; 850; 859; 872; 858; 849; 876; 855; 867; 5061; 863; 848; 846; 857; 5081; 5105; 5076; 5111; 5066; 5058; 5065; 865; 861; 852; 853; 844; 843; 5077; 5083; 5106; 5078; 5121; 910; 5873; 5112; 5087; 5093; 5098; 5075; 5103; 5108; 911; 5874; 866; 847; 856; 5119; 5872; 5113; 5086; 5085; 5104; 5118; 5082; 5875; 5084; 912; 5869; 5871; 5074; 5073; 5122; 5870]
 [5085; 5869; 5870; 5871; 5872; 5873; 5874; 5875].
Definition ks_cuts_c32 := mkCut [7096; 7095; 7094; 7093; 7092; 7091; 7090; 7089]
 [5140; 839; 5156; 5158; 823; 5177; 838; 5157; 836; 824; 819; 5163; 837; 833; 829; 822; 828; 815; 826; 5165; 825; 835; 831; 818; 5159; 5125; 827; 5124; 5164; 834; 814; 832; 817; 830; 821; 5162; 5182; 5138; 5169; 5184; 5148; 816; 5160; 5139; 5170; 813; 811; 5191; 5188; 812; 809; 808; 805; 820; 5168; 5183; 5137; 5147; 810; 807; 804; 803; 801; 5136; 802; 788; 779; 5185; 5135; 5130; 5132; 5128; 5127; 5131; 794; 775; 806; 785; 5180; 776; 5179; 5142; 784; 800; 5167; 798; 797; 5134; 792; 790; 796; 786; 777; 5178; 5175; 799; 789; 780; 5126; 5133; 795; 773; 791; 774; 783; 5172; 5161; 5166; 5181; 782; 5145; 5129; 793; 778; 5174; 5186; 5152; 5146; 5189; 840; 5154; 5922; 842; 5918; 5151; 787; 5149; 5173; 5144; 5143; 5141; 5190; 5919; 5155; 5153; 781; 5171; 5150; 5924; 5176; 5187; 5921; 841; 5923; 5920]
 [5153; 5918; 5919; 5920; 5921; 5922; 5923; 5924].
Definition ks_cuts_c33 := mkCut [7088; 7087; 7086; 7085; 7084; 7083; 7082; 7081]
 [5224; 767; 768; 759; 758; 5227; 5233; 765; 5192; 761; 748; 764; 750; 5225; 5193; 757; 762; 5226; 5208; 756; 746; 5228; 769; 753; 749; 5231; 755; 747; 766; 744; 5230; 5216; 741; 5236; 5251; 754; 745; 5250; 5207; 5259; 5206; 735; 5245; 763; 752; 5232; 5238; 760; 751; 5237; 5215; 5252; 740; 743; 5256; 742; 739; 5205; 734; 733; 5203; 5198; 5204; 731; 730; 5235; 5243; 729; 719; 710; 732; 718; 709; 722; 711; 720; 738; 728; 737; 5253; 736; 727; 5202; 726; 5200; 5196; 5197; 5194; 715; 5248; 707; 5195; 721; 713; 5201; 725; 712; 704; 703; 5199; 724; 714; 5246; 5219; 705; 5229; 5213; 5249; 706; 5247; 5210; 723; 708; 717; 5217; 5241; 5212; 5223; 5242; 5214; 5257; 5222; 5221; 770; 5915; 5234; 5239; 5244; 771; 5916; 716; 5240; 5218; 5917; 5254; 5220; 772; 5255; 5913; 5914; 5911; 5211; 5209; 5258; 5912]
 [5221; 5911; 5912; 5913; 5914; 5915; 5916; 5917].
Definition ks_cuts_c34 := mkCut [7080; 7079; 7078; 7077; 7076; 7075; 7074; 7073]
 [5293; 697; 698; 5292; 689; 688; 5295; 5261; 5260; 694; 680; 687; 5301; 692; 695; 691; 678; 696; 5294; 683; 679; 686; 676; 699; 684; 675; 5275; 5296; 5299; 5313; 693; 682; 5300; 5306; 690; 681; 5276; 674; 5304; 5319; 685; 677; 5298; 5284; 671; 5318; 5274; 665; 5305; 5320; 673; 5283; 670; 5327; 5324; 672; 669; 5273; 664; 663; 5271; 5272; 668; 667; 5321; 666; 645; 5268; 5264; 5267; 5263; 662; 648; 5316; 639; 661; 660; 658; 5303; 652; 5311; 657; 656; 637; 646; 5265; 653; 638; 5270; 650; 659; 649; 640; 5262; 5269; 651; 634; 647; 5309; 5280; 5291; 643; 5308; 641; 636; 5315; 5278; 5266; 655; 633; 642; 5310; 5322; 5288; 654; 635; 5281; 5297; 5317; 702; 5290; 5289; 5904; 5302; 5279; 5277; 5326; 5905; 5307; 5286; 5312; 5323; 5907; 5906; 644; 5285; 5910; 5314; 5282; 5325; 700; 5908; 5287; 701; 5909]
 [5289; 5904; 5905; 5906; 5907; 5908; 5909; 5910].
Definition ks_cuts_c35 := mkCut [7104; 7103; 7102; 7101; 7100; 7099; 7098; 7097]
 [627; 5363; 628; 5369; 625; 5361; 5329; 622; 621; 608; 5328; 624; 610; 5360; 617; 619; 618; 629; 614; 605; 5344; 626; 604; 5362; 613; 615; 607; 5366; 616; 606; 5343; 5395; 5364; 5372; 5381; 620; 611; 5373; 5351; 5388; 600; 623; 612; 5368; 5374; 603; 5386; 5342; 595; 5387; 609; 5367; 5352; 601; 5392; 602; 599; 5341; 594; 593; 5340; 5339; 5334; 592; 569; 598; 597; 5336; 5332; 5331; 5335; 584; 574; 5389; 591; 596; 566; 575; 590; 5371; 582; 571; 580; 5382; 588; 5379; 589; 579; 570; 587; 5338; 5333; 583; 577; 568; 5353; 586; 576; 567; 5330; 581; 564; 5337; 585; 572; 573; 5355; 5376; 5377; 5348; 5378; 5350; 5390; 5356; 563; 578; 5383; 5346; 5384; 5359; 565; 5349; 5393; 630; 5901; 5365; 5370; 5347; 5345; 5394; 5375; 5354; 5903; 5898; 5380; 631; 5902; 5391; 5900; 5899; 5385; 632; 5897; 5358; 5357]
 [5357; 5897; 5898; 5899; 5900; 5901; 5902; 5903].
Definition ks_cuts_c36 := mkCut [7224; 7223; 7222; 7221; 7220; 7219; 7218; 7217]
 [5449; 5428; 5412; 5430; 543; 558; 539; 5429; 5435; 556; 5437; 555; 551; 538; 545; 552; 550; 537; 546; 5431; 5397; 547; 534; 5396; 554; 540; 559; 544; 535; 5434; 5420; 5454; 5410; 525; 5440; 5455; 557; 553; 536; 5432; 531; 549; 542; 5436; 5442; 548; 541; 5441; 5419; 530; 5456; 533; 5411; 5463; 5460; 532; 529; 5409; 524; 523; 5407; 5408; 522; 508; 499; 528; 527; 5404; 521; 520; 5439; 5447; 519; 500; 509; 512; 510; 501; 5400; 5403; 5399; 518; 5402; 514; 504; 5450; 495; 5457; 526; 505; 517; 5401; 513; 507; 496; 498; 516; 506; 497; 5445; 5416; 5421; 5451; 5414; 5406; 5398; 511; 503; 5444; 5405; 494; 5423; 5433; 5453; 5438; 515; 493; 502; 5417; 5446; 5458; 5424; 562; 5946; 5415; 5413; 5462; 5947; 5418; 5461; 560; 5950; 5443; 5448; 561; 5951; 5459; 5949; 5422; 5952; 5452; 5427; 5948; 5426; 5425]
 [5425; 5946; 5947; 5948; 5949; 5950; 5951; 5952].
Definition ks_cuts_c37 := mkCut [7216; 7215; 7214; 7213; 7212; 7211; 7210; 7209]
 [5496; 5517; 5480; 5498; 489; 473; 476; 5499; 5464; 5505; 475; 485; 481; 468; 487; 486; 466; 488; 483; 479; 472; 469; 5504; 5500; 5510; 5497; 474; 482; 465; 5479; 5531; 5465; 477; 464; 5503; 467; 5502; 5488; 5522; 5478; 455; 480; 461; 478; 471; 5509; 5524; 463; 5528; 462; 459; 458; 484; 470; 5508; 5523; 5477; 454; 453; 451; 452; 438; 5475; 429; 5476; 5470; 450; 448; 5507; 442; 440; 431; 5515; 449; 430; 439; 5487; 460; 457; 5472; 5468; 5471; 5467; 5525; 444; 425; 434; 5518; 456; 435; 5520; 426; 447; 5469; 5474; 5466; 443; 437; 5513; 5489; 5484; 5495; 5473; 445; 423; 441; 433; 5491; 424; 5501; 5506; 5483; 5511; 5516; 5485; 5519; 5482; 5481; 5530; 491; 5944; 446; 436; 427; 5527; 5941; 5521; 5512; 5490; 5945; 5942; 428; 5494; 5493; 432; 5514; 5526; 5492; 492; 5939; 5486; 5529; 490; 5943; 5940]
 [5493; 5939; 5940; 5941; 5942; 5943; 5944; 5945].
Definition ks_cuts_c38 := mkCut [7208; 7207; 7206; 7205; 7204; 7203; 7202; 7201]
 [5548; 5585; 419; 418; 416; 5564; 5565; 404; 395; 5566; 406; 403; 399; 5571; 5567; 5533; 407; 394; 5532; 414; 400; 5573; 415; 412; 411; 398; 405; 397; 410; 5570; 5590; 5546; 385; 5556; 5576; 5591; 417; 396; 5547; 5568; 5599; 5596; 409; 413; 402; 392; 408; 401; 5577; 5592; 5555; 390; 391; 5572; 5578; 393; 389; 388; 5545; 387; 5593; 5540; 5536; 5535; 5539; 386; 356; 384; 383; 5543; 5538; 5544; 381; 380; 378; 5575; 5583; 379; 360; 377; 5542; 5537; 5534; 5541; 375; 362; 376; 357; 373; 367; 358; 5582; 371; 363; 354; 382; 368; 5587; 353; 374; 364; 5557; 369; 366; 5580; 5594; 372; 361; 365; 5588; 5560; 370; 5586; 5581; 5554; 5559; 5552; 5563; 359; 5550; 355; 5569; 5589; 422; 5574; 5579; 5558; 5938; 5553; 5562; 5597; 420; 5936; 5551; 5549; 5598; 5584; 5595; 421; 5937; 5934; 5561; 5932; 5935; 5933]
 [5561; 5932; 5933; 5934; 5935; 5936; 5937; 5938].
Definition ks_cuts_c39 := mkCut [7232; 7231; 7230; 7229; 7228; 7227; 7226; 7225]
 [5641; 345; 5635; 349; 5633; 334; 346; 347; 342; 5653; 340; 343; 341; 5632; 5634; 339; 338; 335; 333; 336; 348; 5600; 344; 332; 5640; 331; 330; 329; 5639; 328; 327; 326; 5636; 5646; 5616; 5601; 337; 324; 5638; 5644; 5659; 5624; 321; 325; 5658; 5645; 5660; 323; 5623; 320; 5615; 5667; 5664; 322; 319; 318; 5613; 317; 5661; 316; 295; 286; 5614; 315; 314; 5608; 5604; 5607; 5603; 313; 311; 312; 5611; 310; 5643; 5651; 308; 302; 307; 306; 287; 5605; 303; 288; 291; 300; 298; 5655; 5656; 297; 5649; 5620; 5631; 5612; 309; 299; 290; 5606; 304; 294; 5654; 5625; 285; 5610; 5602; 301; 5609; 305; 293; 5627; 284; 5637; 5642; 5647; 5652; 351; 5619; 5657; 5630; 5629; 292; 5650; 5622; 5930; 296; 5648; 5662; 5663; 5927; 5928; 5626; 5628; 352; 5925; 5931; 289; 5618; 5617; 5666; 5926; 283; 5621; 5665; 350; 5929]
 [5629; 5925; 5926; 5927; 5928; 5929; 5930; 5931].
Definition ks_cuts : list cut := [ks_cuts_c0; ks_cuts_c1; ks_cuts_c2; ks_cuts_c3; ks_cuts_c4; ks_cuts_c5; ks_cuts_c6; ks_cuts_c7; ks_cuts_c8; ks_cuts_c9; ks_cuts_c10; ks_cuts_c11; ks_cuts_c12; ks_cuts_c13; ks_cuts_c14; ks_cuts_c15; ks_cuts_c16; ks_cuts_c17; ks_cuts_c18; ks_cuts_c19; ks_cuts_c20; ks_cuts_c21; ks_cuts_c22; ks_cuts_c23; ks_cuts_c24; ks_cuts_c25; ks_cuts_c26; ks_cuts_c27; ks_cuts_c28; ks_cuts_c29; ks_cuts_c30; ks_cuts_c31; ks_cuts_c32; ks_cuts_c33; ks_cuts_c34; ks_cuts_c35; ks_cuts_c36; ks_cuts_c37; ks_cuts_c38; ks_cuts_c39].

Definition enc_cuts_c0 := mkCut [1671; 1670; 1669; 1668; 1667; 1666; 1665; 1664]
 [12343; 12341; 19439; 19440; 19441; 12331; 12328; 19442; 19448; 12330; 12342; 19460; 12338; 12344; 12329; 12340; 12336; 12337; 12335; 12334; 12333; 19423; 19408; 12332; 19407; 12339; 12327; 19447; 12326; 12325; 12324; 19446; 12323; 12322; 12321; 19443; 19453; 12320; 19452; 19467; 12318; 19422; 19474; 19471; 12317; 12319; 19445; 19451; 19465; 19466; 19431; 12316; 19430; 12315; 19421; 12310; 12314; 12313; 19420; 12309; 12312; 19468; 12311; 19415; 19411; 19414; 19410; 12308; 12307; 12306; 19419; 19418; 19413; 12299; 12305; 12303; 19450; 12297; 19458; 12304; 12302; 12301; 19417; 19409; 19416; 12300; 19412; 12298; 12296; 12295; 12294; 12293; 12292; 19456; 19427; 12291; 12290; 19463; 19438; 12289; 19461; 19432; 12288; 19455; 19434; 12287; 12286; 12285; 12284; 12283; 19457; 19469; 19435; 19429; 12282; 12281; 19462; 19425; 12280; 12279; 19444; 19449; 19454; 19459; 19464; 19470; 28543; 28542; 19437; 19436; 12347; 12346; 19433; 28546; 19426; 19424; 19473; 28541; 12278; 19428; 19472; 12345; 28540; 28545; 28544]
 [19436; 28540; 28541; 28542; 28543; 28544; 28545; 28546].
Definition enc_cuts_c1 := mkCut [1679; 1678; 1677; 1676; 1675; 1674; 1673; 1672]
 [12413; 12411; 19371; 19372; 19373; 12401; 12398; 19374; 19380; 12400; 12412; 19392; 12408; 12414; 12399; 12410; 12406; 12407; 12405; 12404; 12403; 19355; 19340; 12402; 19339; 12409; 12397; 19379; 12396; 12395; 12394; 19378; 12393; 12392; 12391; 19375; 19385; 12390; 19384; 19399; 12388; 19354; 19406; 19403; 12387; 12389; 19377; 19383; 19397; 19398; 19363; 12386; 19362; 12385; 19353; 12380; 12384; 12383; 19352; 12379; 12382; 19400; 12381; 19347; 19343; 19346; 19342; 12378; 12377; 12376; 19351; 19350; 19345; 12369; 12375; 12373; 19382; 12367; 19390; 12374; 12372; 12371; 19349; 19341; 19348; 12370; 19344; 12368; 12366; 12365; 12364; 12363; 12362; 19388; 19359; 12361; 12360; 19395; 19370; 12359; 19393; 19364; 12358; 19387; 19366; 12357; 12356; 12355; 12354; 12353; 19389; 19401; 19367; 19361; 12352; 12351; 19394; 19357; 12350; 12349; 19376; 19381; 19386; 19391; 19396; 19402; 28452; 28451; 19369; 19368; 12417; 12416; 19365; 28455; 19358; 19356; 19405; 28450; 12348; 19360; 19404; 12415; 28449; 28454; 28453]
 [19368; 28449; 28450; 28451; 28452; 28453; 28454; 28455].
Definition enc_cuts_c2 := mkCut [1687; 1686; 1685; 1684; 1683; 1682; 1681; 1680]
 [12483; 12481; 19303; 19304; 19305; 12471; 12468; 19306; 19312; 12470; 12482; 19324; 12478; 12484; 12469; 12480; 12476; 12477; 12475; 12474; 12473; 19287; 19272; 12472; 19271; 12479; 12467; 19311; 12466; 12465; 12464; 19310; 12463; 12462; 12461; 19307; 19317; 12460; 19316; 19331; 12458; 19286; 19338; 19335; 12457; 12459; 19309; 19315; 19329; 19330; 19295; 12456; 19294; 12455; 19285; 12450; 12454; 12453; 19284; 12449; 12452; 19332; 12451; 19279; 19275; 19278; 19274; 12448; 12447; 12446; 19283; 19282; 19277; 12439; 12445; 12443; 19314; 12437; 19322; 12444; 12442; 12441; 19281; 19273; 19280; 12440; 19276; 12438; 12436; 12435; 12434; 12433; 12432; 19320; 19291; 12431; 12430; 19327; 19302; 12429; 19325; 19296; 12428; 19319; 19298; 12427; 12426; 12425; 12424; 12423; 19321; 19333; 19299; 19293; 12422; 12421; 19326; 19289; 12420; 12419; 19308; 19313; 19318; 19323; 19328; 19334; 28473; 28472; 19301; 19300; 12487; 12486; 19297; 28476; 19290; 19288; 19337; 28471; 12418; 19292; 19336; 12485; 28470; 28475; 28474]
 [19300; 28470; 28471; 28472; 28473; 28474; 28475; 28476].
Definition enc_cuts_c3 := mkCut [1695; 1694; 1693; 1692; 1691; 1690; 1689; 1688]
 [12553; 12551; 19235; 19236; 19237; 12541; 12538; 19238; 19244; 12540; 12552; 19256; 12548; 12554; 12539; 12550; 12546; 12547; 12545; 12544; 12543; 19219; 19204; 12542; 19203; 12549; 12537; 19243; 12536; 12535; 12534; 19242; 12533; 12532; 12531; 19239; 19249; 12530; 19248; 19263; 12528; 19218; 19270; 19267; 12527; 12529; 19241; 19247; 19261; 19262; 19227; 12526; 19226; 12525; 19217; 12520; 12524; 12523; 19216; 12519; 12522; 19264; 12521; 19211; 19207; 19210; 19206; 12518; 12517; 12516; 19215; 19214; 19209; 12509; 12515; 12513; 19246; 12507; 19254; 12514; 12512; 12511; 19213; 19205; 19212; 12510; 19208; 12508; 12506; 12505; 12504; 12503; 12502; 19252; 19223; 12501; 12500; 19259; 19234; 12499; 19257; 19228; 12498; 19251; 19230; 12497; 12496; 12495; 12494; 12493; 19253; 19265; 19231; 19225; 12492; 12491; 19258; 19221; 12490; 12489; 19240; 19245; 19250; 19255; 19260; 19266; 28494; 28493; 19233; 19232; 12557; 12556; 19229; 28497; 19222; 19220; 19269; 28492; 12488; 19224; 19268; 12555; 28491; 28496; 28495]
 [19232; 28491; 28492; 28493; 28494; 28495; 28496; 28497].
Definition enc_cuts_c4 := mkCut [1703; 1702; 1701; 1700; 1699; 1698; 1697; 1696]
 [12623; 12621; 19167; 19168; 19169; 12611; 12608; 19170; 19176; 12610; 12622; 19188; 12618; 12624; 12609; 12620; 12616; 12617; 12615; 12614; 12613; 19151; 19136; 12612; 19135; 12619; 12607; 19175; 12606; 12605; 12604; 19174; 12603; 12602; 12601; 19171; 19181; 12600; 19180; 19195; 12598; 19150; 19202; 19199; 12597; 12599; 19173; 19179; 19193; 19194; 19159; 12596; 19158; 12595; 19149; 12590; 12594; 12593; 19148; 12589; 12592; 19196; 12591; 19143; 19139; 19142; 19138; 12588; 12587; 12586; 19147; 19146; 19141; 12579; 12585; 12583; 19178; 12577; 19186; 12584; 12582; 12581; 19145; 19137; 19144; 12580; 19140; 12578; 12576; 12575; 12574; 12573; 12572; 19184; 19155; 12571; 12570; 19191; 19166; 12569; 19189; 19160; 12568; 19183; 19162; 12567; 12566; 12565; 12564; 12563; 19185; 19197; 19163; 19157; 12562; 12561; 19190; 19153; 12560; 12559; 19172; 19177; 19182; 19187; 19192; 19198; 28515; 28514; 19165; 19164; 12627; 12626; 19161; 28518; 19154; 19152; 19201; 28513; 12558; 19156; 19200; 12625; 28512; 28517; 28516]
 [19164; 28512; 28513; 28514; 28515; 28516; 28517; 28518].
Definition enc_cuts_c5 := mkCut [1711; 1710; 1709; 1708; 1707; 1706; 1705; 1704]
 [12693; 12691; 19099; 19100; 19101; 12681; 12678; 19102; 19108; 12680; 12692; 19120; 12688; 12694; 12679; 12690; 12686; 12687; 12685; 12684; 12683; 19083; 19068; 12682; 19067; 12689; 12677; 19107; 12676; 12675; 12674; 19106; 12673; 12672; 12671; 19103; 19113; 12670; 19112; 19127; 12668; 19082; 19134; 19131; 12667; 12669; 19105; 19111; 19125; 19126; 19091; 12666; 19090; 12665; 19081; 12660; 12664; 12663; 19080; 12659; 12662; 19128; 12661; 19075; 19071; 19074; 19070; 12658; 12657; 12656; 19079; 19078; 19073; 12649; 12655; 12653; 19110; 12647; 19118; 12654; 12652; 12651; 19077; 19069; 19076; 12650; 19072; 12648; 12646; 12645; 12644; 12643; 12642; 19116; 19087; 12641; 12640; 19123; 19098; 12639; 19121; 19092; 12638; 19115; 19094; 12637; 12636; 12635; 12634; 12633; 19117; 19129; 19095; 19089; 12632; 12631; 19122; 19085; 12630; 12629; 19104; 19109; 19114; 19119; 19124; 19130; 28536; 28535; 19097; 19096; 12697; 12696; 19093; 28539; 19086; 19084; 19133; 28534; 12628; 19088; 19132; 12695; 28533; 28538; 28537]
 [19096; 28533; 28534; 28535; 28536; 28537; 28538; 28539].
Definition enc_cuts_c6 := mkCut [1719; 1718; 1717; 1716; 1715; 1714; 1713; 1712]
 [12763; 12761; 19031; 19032; 19033; 12751; 12748; 19034; 19040; 12750; 12762; 19052; 12758; 12764; 12749; 12760; 12756; 12757; 12755; 12754; 12753; 19015; 19000; 12752; 18999; 12759; 12747; 19039; 12746; 12745; 12744; 19038; 12743; 12742; 12741; 19035; 19045; 12740; 19044; 19059; 12738; 19014; 19066; 19063; 12737; 12739; 19037; 19043; 19057; 19058; 19023; 12736; 19022; 12735; 19013; 12730; 12734; 12733; 19012; 12729; 12732; 19060; 12731; 19007; 19003; 19006; 19002; 12728; 12727; 12726; 19011; 19010; 19005; 12719; 12725; 12723; 19042; 12717; 19050; 12724; 12722; 12721; 19009; 19001; 19008; 12720; 19004; 12718; 12716; 12715; 12714; 12713; 12712; 19048; 19019; 12711; 12710; 19055; 19030; 12709; 19053; 19024; 12708; 19047; 19026; 12707; 12706; 12705; 12704; 12703; 19049; 19061; 19027; 19021; 12702; 12701; 19054; 19017; 12700; 12699; 19036; 19041; 19046; 19051; 19056; 19062; 28445; 28444; 19029; 19028; 12767; 12766; 19025; 28448; 19018; 19016; 19065; 28443; 12698; 19020; 19064; 12765; 28442; 28447; 28446]
 [19028; 28442; 28443; 28444; 28445; 28446; 28447; 28448].
Definition enc_cuts_c7 := mkCut [1727; 1726; 1725; 1724; 1723; 1722; 1721; 1720]
 [12833; 12831; 18963; 18964; 18965; 12821; 12818; 18966; 18972; 12820; 12832; 18984; 12828; 12834; 12819; 12830; 12826; 12827; 12825; 12824; 12823; 18947; 18932; 12822; 18931; 12829; 12817; 18971; 12816; 12815; 12814; 18970; 12813; 12812; 12811; 18967; 18977; 12810; 18976; 18991; 12808; 18946; 18998; 18995; 12807; 12809; 18969; 18975; 18989; 18990; 18955; 12806; 18954; 12805; 18945; 12800; 12804; 12803; 18944; 12799; 12802; 18992; 12801; 18939; 18935; 18938; 18934; 12798; 12797; 12796; 18943; 18942; 18937; 12789; 12795; 12793; 18974; 12787; 18982; 12794; 12792; 12791; 18941; 18933; 18940; 12790; 18936; 12788; 12786; 12785; 12784; 12783; 12782; 18980; 18951; 12781; 12780; 18987; 18962; 12779; 18985; 18956; 12778; 18979; 18958; 12777; 12776; 12775; 12774; 12773; 18981; 18993; 18959; 18953; 12772; 12771; 18986; 18949; 12770; 12769; 18968; 18973; 18978; 18983; 18988; 18994; 28466; 28465; 18961; 18960; 12837; 12836; 18957; 28469; 18950; 18948; 18997; 28464; 12768; 18952; 18996; 12835; 28463; 28468; 28467]
 [18960; 28463; 28464; 28465; 28466; 28467; 28468; 28469].
Definition enc_cuts_c8 := mkCut [1735; 1734; 1733; 1732; 1731; 1730; 1729; 1728]
 [12903; 12901; 18895; 18896; 18897; 12891; 12888; 18898; 18904; 12890; 12902; 18916; 12898; 12904; 12889; 12900; 12896; 12897; 12895; 12894; 12893; 18879; 18864; 12892; 18863; 12899; 12887; 18903; 12886; 12885; 12884; 18902; 12883; 12882; 12881; 18899; 18909; 12880; 18908; 18923; 12878; 18878; 18930; 18927; 12877; 12879; 18901; 18907; 18921; 18922; 18887; 12876; 18886; 12875; 18877; 12870; 12874; 12873; 18876; 12869; 12872; 18924; 12871; 18871; 18867; 18870; 18866; 12868; 12867; 12866; 18875; 18874; 18869; 12859; 12865; 12863; 18906; 12857; 18914; 12864; 12862; 12861; 18873; 18865; 18872; 12860; 18868; 12858; 12856; 12855; 12854; 12853; 12852; 18912; 18883; 12851; 12850; 18919; 18894; 12849; 18917; 18888; 12848; 18911; 18890; 12847; 12846; 12845; 12844; 12843; 18913; 18925; 18891; 18885; 12842; 12841; 18918; 18881; 12840; 12839; 18900; 18905; 18910; 18915; 18920; 18926; 28487; 28486; 18893; 18892; 12907; 12906; 18889; 28490; 18882; 18880; 18929; 28485; 12838; 18884; 18928; 12905; 28484; 28489; 28488]
 [18892; 28484; 28485; 28486; 28487; 28488; 28489; 28490].
Definition enc_cuts_c9 := mkCut [1743; 1742; 1741; 1740; 1739; 1738; 1737; 1736]
 [12973; 12971; 18827; 18828; 18829; 12961; 12958; 18830; 18836; 12960; 12972; 18848; 12968; 12974; 12959; 12970; 12966; 12967; 12965; 12964; 12963; 18811; 18796; 12962; 18795; 12969; 12957; 18835; 12956; 12955; 12954; 18834; 12953; 12952; 12951; 18831; 18841; 12950; 18840; 18855; 12948; 18810; 18862; 18859; 12947; 12949; 18833; 18839; 18853; 18854; 18819; 12946; 18818; 12945; 18809; 12940; 12944; 12943; 18808; 12939; 12942; 18856; 12941; 18803; 18799; 18802; 18798; 12938; 12937; 12936; 18807; 18806; 18801; 12929; 12935; 12933; 18838; 12927; 18846; 12934; 12932; 12931; 18805; 18797; 18804; 12930; 18800; 12928; 12926; 12925; 12924; 12923; 12922; 18844; 18815; 12921; 12920; 18851; 18826; 12919; 18849; 18820; 12918; 18843; 18822; 12917; 12916; 12915; 12914; 12913; 18845; 18857; 18823; 18817; 12912; 12911; 18850; 18813; 12910; 12909; 18832; 18837; 18842; 18847; 18852; 18858; 28508; 28507; 18825; 18824; 12977; 12976; 18821; 28511; 18814; 18812; 18861; 28506; 12908; 18816; 18860; 12975; 28505; 28510; 28509]
 [18824; 28505; 28506; 28507; 28508; 28509; 28510; 28511].
Definition enc_cuts_c10 := mkCut [1751; 1750; 1749; 1748; 1747; 1746; 1745; 1744]
 [13043; 13041; 18759; 18760; 18761; 13031; 13028; 18762; 18768; 13030; 13042; 18780; 13038; 13044; 13029; 13040; 13036; 13037; 13035; 13034; 13033; 18743; 18728; 13032; 18727; 13039; 13027; 18767; 13026; 13025; 13024; 18766; 13023; 13022; 13021; 18763; 18773; 13020; 18772; 18787; 13018; 18742; 18794; 18791; 13017; 13019; 18765; 18771; 18785; 18786; 18751; 13016; 18750; 13015; 18741; 13010; 13014; 13013; 18740; 13009; 13012; 18788; 13011; 18735; 18731; 18734; 18730; 13008; 13007; 13006; 18739; 18738; 18733; 12999; 13005; 13003; 18770; 12997; 18778; 13004; 13002; 13001; 18737; 18729; 18736; 13000; 18732; 12998; 12996; 12995; 12994; 12993; 12992; 18776; 18747; 12991; 12990; 18783; 18758; 12989; 18781; 18752; 12988; 18775; 18754; 12987; 12986; 12985; 12984; 12983; 18777; 18789; 18755; 18749; 12982; 12981; 18782; 18745; 12980; 12979; 18764; 18769; 18774; 18779; 18784; 18790; 28529; 28528; 18757; 18756; 13047; 13046; 18753; 28532; 18746; 18744; 18793; 28527; 12978; 18748; 18792; 13045; 28526; 28531; 28530]
 [18756; 28526; 28527; 28528; 28529; 28530; 28531; 28532].
Definition enc_cuts_c11 := mkCut [1759; 1758; 1757; 1756; 1755; 1754; 1753; 1752]
 [13113; 13111; 18691; 18692; 18693; 13101; 13098; 18694; 18700; 13100; 13112; 18712; 13108; 13114; 13099; 13110; 13106; 13107; 13105; 13104; 13103; 18675; 18660; 13102; 18659; 13109; 13097; 18699; 13096; 13095; 13094; 18698; 13093; 13092; 13091; 18695; 18705; 13090; 18704; 18719; 13088; 18674; 18726; 18723; 13087; 13089; 18697; 18703; 18717; 18718; 18683; 13086; 18682; 13085; 18673; 13080; 13084; 13083; 18672; 13079; 13082; 18720; 13081; 18667; 18663; 18666; 18662; 13078; 13077; 13076; 18671; 18670; 18665; 13069; 13075; 13073; 18702; 13067; 18710; 13074; 13072; 13071; 18669; 18661; 18668; 13070; 18664; 13068; 13066; 13065; 13064; 13063; 13062; 18708; 18679; 13061; 13060; 18715; 18690; 13059; 18713; 18684; 13058; 18707; 18686; 13057; 13056; 13055; 13054; 13053; 18709; 18721; 18687; 18681; 13052; 13051; 18714; 18677; 13050; 13049; 18696; 18701; 18706; 18711; 18716; 18722; 28438; 28437; 18689; 18688; 13117; 13116; 18685; 28441; 18678; 18676; 18725; 28436; 13048; 18680; 18724; 13115; 28435; 28440; 28439]
 [18688; 28435; 28436; 28437; 28438; 28439; 28440; 28441].
Definition enc_cuts_c12 := mkCut [1767; 1766; 1765; 1764; 1763; 1762; 1761; 1760]
 [13183; 13181; 18623; 18624; 18625; 13171; 13168; 18626; 18632; 13170; 13182; 18644; 13178; 13184; 13169; 13180; 13176; 13177; 13175; 13174; 13173; 18607; 18592; 13172; 18591; 13179; 13167; 18631; 13166; 13165; 13164; 18630; 13163; 13162; 13161; 18627; 18637; 13160; 18636; 18651; 13158; 18606; 18658; 18655; 13157; 13159; 18629; 18635; 18649; 18650; 18615; 13156; 18614; 13155; 18605; 13150; 13154; 13153; 18604; 13149; 13152; 18652; 13151; 18599; 18595; 18598; 18594; 13148; 13147; 13146; 18603; 18602; 18597; 13139; 13145; 13143; 18634; 13137; 18642; 13144; 13142; 13141; 18601; 18593; 18600; 13140; 18596; 13138; 13136; 13135; 13134; 13133; 13132; 18640; 18611; 13131; 13130; 18647; 18622; 13129; 18645; 18616; 13128; 18639; 18618; 13127; 13126; 13125; 13124; 13123; 18641; 18653; 18619; 18613; 13122; 13121; 18646; 18609; 13120; 13119; 18628; 18633; 18638; 18643; 18648; 18654; 28459; 28458; 18621; 18620; 13187; 13186; 18617; 28462; 18610; 18608; 18657; 28457; 13118; 18612; 18656; 13185; 28456; 28461; 28460]
 [18620; 28456; 28457; 28458; 28459; 28460; 28461; 28462].
Definition enc_cuts_c13 := mkCut [1775; 1774; 1773; 1772; 1771; 1770; 1769; 1768]
 [13253; 13251; 18555; 18556; 18557; 13241; 13238; 18558; 18564; 13240; 13252; 18576; 13248; 13254; 13239; 13250; 13246; 13247; 13245; 13244; 13243; 18539; 18524; 13242; 18523; 13249; 13237; 18563; 13236; 13235; 13234; 18562; 13233; 13232; 13231; 18559; 18569; 13230; 18568; 18583; 13228; 18538; 18590; 18587; 13227; 13229; 18561; 18567; 18581; 18582; 18547; 13226; 18546; 13225; 18537; 13220; 13224; 13223; 18536; 13219; 13222; 18584; 13221; 18531; 18527; 18530; 18526; 13218; 13217; 13216; 18535; 18534; 18529; 13209; 13215; 13213; 18566; 13207; 18574; 13214; 13212; 13211; 18533; 18525; 18532; 13210; 18528; 13208; 13206; 13205; 13204; 13203; 13202; 18572; 18543; 13201; 13200; 18579; 18554; 13199; 18577; 18548; 13198; 18571; 18550; 13197; 13196; 13195; 13194; 13193; 18573; 18585; 18551; 18545; 13192; 13191; 18578; 18541; 13190; 13189; 18560; 18565; 18570; 18575; 18580; 18586; 28480; 28479; 18553; 18552; 13257; 13256; 18549; 28483; 18542; 18540; 18589; 28478; 13188; 18544; 18588; 13255; 28477; 28482; 28481]
 [18552; 28477; 28478; 28479; 28480; 28481; 28482; 28483].
Definition enc_cuts_c14 := mkCut [1783; 1782; 1781; 1780; 1779; 1778; 1777; 1776]
 [13323; 13321; 18487; 18488; 18489; 13311; 13308; 18490; 18496; 13310; 13322; 18508; 13318; 13324; 13309; 13320; 13316; 13317; 13315; 13314; 13313; 18471; 18456; 13312; 18455; 13319; 13307; 18495; 13306; 13305; 13304; 18494; 13303; 13302; 13301; 18491; 18501; 13300; 18500; 18515; 13298; 18470; 18522; 18519; 13297; 13299; 18493; 18499; 18513; 18514; 18479; 13296; 18478; 13295; 18469; 13290; 13294; 13293; 18468; 13289; 13292; 18516; 13291; 18463; 18459; 18462; 18458; 13288; 13287; 13286; 18467; 18466; 18461; 13279; 13285; 13283; 18498; 13277; 18506; 13284; 13282; 13281; 18465; 18457; 18464; 13280; 18460; 13278; 13276; 13275; 13274; 13273; 13272; 18504; 18475; 13271; 13270; 18511; 18486; 13269; 18509; 18480; 13268; 18503; 18482; 13267; 13266; 13265; 13264; 13263; 18505; 18517; 18483; 18477; 13262; 13261; 18510; 18473; 13260; 13259; 18492; 18497; 18502; 18507; 18512; 18518; 28501; 28500; 18485; 18484; 13327; 13326; 18481; 28504; 18474; 18472; 18521; 28499; 13258; 18476; 18520; 13325; 28498; 28503; 28502]
 [18484; 28498; 28499; 28500; 28501; 28502; 28503; 28504].
Definition enc_cuts_c15 := mkCut [1791; 1790; 1789; 1788; 1787; 1786; 1785; 1784]
 [13393; 13391; 18419; 18420; 18421; 13381; 13378; 18422; 18428; 13380; 13392; 18440; 13388; 13394; 13379; 13390; 13386; 13387; 13385; 13384; 13383; 18403; 18388; 13382; 18387; 13389; 13377; 18427; 13376; 13375; 13374; 18426; 13373; 13372; 13371; 18423; 18433; 13370; 18432; 18447; 13368; 18402; 18454; 18451; 13367; 13369; 18425; 18431; 18445; 18446; 18411; 13366; 18410; 13365; 18401; 13360; 13364; 13363; 18400; 13359; 13362; 18448; 13361; 18395; 18391; 18394; 18390; 13358; 13357; 13356; 18399; 18398; 18393; 13349; 13355; 13353; 18430; 13347; 18438; 13354; 13352; 13351; 18397; 18389; 18396; 13350; 18392; 13348; 13346; 13345; 13344; 13343; 13342; 18436; 18407; 13341; 13340; 18443; 18418; 13339; 18441; 18412; 13338; 18435; 18414; 13337; 13336; 13335; 13334; 13333; 18437; 18449; 18415; 18409; 13332; 13331; 18442; 18405; 13330; 13329; 18424; 18429; 18434; 18439; 18444; 18450; 28522; 28521; 18417; 18416; 13397; 13396; 18413; 28525; 18406; 18404; 18453; 28520; 13328; 18408; 18452; 13395; 28519; 28524; 28523]
 [18416; 28519; 28520; 28521; 28522; 28523; 28524; 28525].
Definition enc_cuts_c16 := mkCut [1543; 1542; 1541; 1540; 1539; 1538; 1537; 1536]
 [11222; 11221; 11224; 20511; 11223; 20527; 20529; 20548; 11218; 11214; 11213; 11207; 11211; 20530; 20535; 20536; 11210; 11201; 20531; 20541; 11208; 20528; 11209; 11220; 11216; 11217; 11215; 20496; 11212; 20495; 11219; 11206; 11205; 11204; 20534; 11203; 11202; 11200; 20540; 20555; 11198; 20510; 20562; 20559; 11197; 11199; 20533; 20539; 20553; 20554; 20519; 11196; 20518; 11195; 20509; 11190; 11194; 11193; 20508; 11189; 11192; 20556; 11191; 20503; 20499; 20502; 20498; 11188; 11187; 11186; 20507; 20506; 20501; 11179; 11185; 11183; 20538; 11177; 20546; 11184; 11182; 11181; 20505; 20497; 20504; 11180; 20500; 11178; 11176; 11175; 11174; 11173; 11172; 20544; 20515; 11171; 11170; 20551; 20526; 11169; 20549; 20520; 11168; 20543; 20522; 11167; 11166; 11165; 11164; 11163; 20545; 20557; 20523; 20517; 11162; 11161; 20550; 20513; 11160; 11159; 20532; 20537; 20542; 20547; 20552; 20558; 30463; 30462; 20525; 20524; 11227; 11226; 20521; 30466; 20514; 20512; 20561; 30461; 11158; 20516; 20560; 11225; 30460; 30465; 30464]
 [20524; 30460; 30461; 30462; 30463; 30464; 30465; 30466].
Definition enc_cuts_c17 := mkCut [1551; 1550; 1549; 1548; 1547; 1546; 1545; 1544]
 [11292; 11291; 11294; 20443; 11293; 20459; 20461; 20480; 11288; 11284; 11283; 11277; 11281; 20462; 20467; 20468; 11280; 11271; 20463; 20473; 11278; 20460; 11279; 11290; 11286; 11287; 11285; 20428; 11282; 20427; 11289; 11276; 11275; 11274; 20466; 11273; 11272; 11270; 20472; 20487; 11268; 20442; 20494; 20491; 11267; 11269; 20465; 20471; 20485; 20486; 20451; 11266; 20450; 11265; 20441; 11260; 11264; 11263; 20440; 11259; 11262; 20488; 11261; 20435; 20431; 20434; 20430; 11258; 11257; 11256; 20439; 20438; 20433; 11249; 11255; 11253; 20470; 11247; 20478; 11254; 11252; 11251; 20437; 20429; 20436; 11250; 20432; 11248; 11246; 11245; 11244; 11243; 11242; 20476; 20447; 11241; 11240; 20483; 20458; 11239; 20481; 20452; 11238; 20475; 20454; 11237; 11236; 11235; 11234; 11233; 20477; 20489; 20455; 20449; 11232; 11231; 20482; 20445; 11230; 11229; 20464; 20469; 20474; 20479; 20484; 20490; 30372; 30371; 20457; 20456; 11297; 11296; 20453; 30375; 20446; 20444; 20493; 30370; 11228; 20448; 20492; 11295; 30369; 30374; 30373]
 [20456; 30369; 30370; 30371; 30372; 30373; 30374; 30375].
Definition enc_cuts_c18 := mkCut [1559; 1558; 1557; 1556; 1555; 1554; 1553; 1552]
 [20391; 20393; 20412; 11364; 20375; 11363; 11361; 11362; 11358; 11354; 11353; 11347; 11348; 20392; 11349; 11344; 20398; 11340; 11351; 20394; 20399; 20400; 11350; 11360; 11356; 11357; 11355; 20360; 11352; 20359; 11359; 11346; 20404; 20419; 11345; 11343; 11342; 11341; 20395; 20405; 11338; 20374; 20426; 20423; 11337; 11339; 20397; 20403; 20417; 20418; 20383; 11336; 20382; 11335; 20373; 11330; 11334; 11333; 20372; 11329; 11332; 20420; 11331; 20367; 20363; 20366; 20362; 11328; 11327; 11326; 20371; 20370; 20365; 11319; 11325; 11323; 20402; 11317; 20410; 11324; 11322; 11321; 20369; 20361; 20368; 11320; 20364; 11318; 11316; 11315; 11314; 11313; 11312; 20408; 20379; 11311; 11310; 20415; 20390; 11309; 20413; 20384; 11308; 20407; 20386; 11307; 11306; 11305; 11304; 11303; 20409; 20421; 20387; 20381; 11302; 11301; 20414; 20377; 11300; 11299; 20396; 20401; 20406; 20411; 20416; 20422; 30393; 30392; 20389; 20388; 11367; 11366; 20385; 30396; 20378; 20376; 20425; 30391; 11298; 20380; 20424; 11365; 30390; 30395; 30394]
 [20388; 30390; 30391; 30392; 30393; 30394; 30395; 30396].
Definition enc_cuts_c19 := mkCut [1567; 1566; 1565; 1564; 1563; 1562; 1561; 1560]
 [20323; 20325; 11418; 20344; 11434; 20307; 11433; 11431; 20324; 11419; 11432; 11428; 11424; 11423; 11417; 11414; 20330; 11410; 11421; 20326; 20331; 20332; 11420; 11430; 11426; 11427; 11425; 20292; 11422; 20291; 11429; 11416; 20336; 20351; 11415; 11413; 11412; 11411; 20327; 20337; 11408; 20306; 20358; 20355; 11407; 11409; 20329; 20335; 20349; 20350; 20315; 11406; 20314; 11405; 20305; 11400; 11404; 11403; 20304; 11399; 11402; 20352; 11401; 20299; 20295; 20298; 20294; 11398; 11397; 11396; 20303; 20302; 20297; 11389; 11395; 11393; 20334; 11387; 20342; 11394; 11392; 11391; 20301; 20293; 20300; 11390; 20296; 11388; 11386; 11385; 11384; 11383; 11382; 20340; 20311; 11381; 11380; 20347; 20322; 11379; 20345; 20316; 11378; 20339; 20318; 11377; 11376; 11375; 11374; 11373; 20341; 20353; 20319; 20313; 11372; 11371; 20346; 20309; 11370; 11369; 20328; 20333; 20338; 20343; 20348; 20354; 30414; 30413; 20321; 20320; 11437; 11436; 20317; 30417; 20310; 20308; 20357; 30412; 11368; 20312; 20356; 11435; 30411; 30416; 30415]
 [20320; 30411; 30412; 30413; 30414; 30415; 30416; 30417].
Definition enc_cuts_c20 := mkCut [1575; 1574; 1573; 1572; 1571; 1570; 1569; 1568]
 [11502; 11501; 11504; 20239; 11503; 20255; 20257; 20276; 11498; 11494; 11493; 11487; 11491; 20258; 20263; 20264; 11490; 11481; 20259; 20269; 11488; 20256; 11489; 11500; 11496; 11497; 11495; 20224; 11492; 20223; 11499; 11486; 11485; 11484; 20262; 11483; 11482; 11480; 20268; 20283; 11478; 20238; 20290; 20287; 11477; 11479; 20261; 20267; 20281; 20282; 20247; 11476; 20246; 11475; 20237; 11470; 11474; 11473; 20236; 11469; 11472; 20284; 11471; 20231; 20227; 20230; 20226; 11468; 11467; 11466; 20235; 20234; 20229; 11459; 11465; 11463; 20266; 11457; 20274; 11464; 11462; 11461; 20233; 20225; 20232; 11460; 20228; 11458; 11456; 11455; 11454; 11453; 11452; 20272; 20243; 11451; 11450; 20279; 20254; 11449; 20277; 20248; 11448; 20271; 20250; 11447; 11446; 11445; 11444; 11443; 20273; 20285; 20251; 20245; 11442; 11441; 20278; 20241; 11440; 11439; 20260; 20265; 20270; 20275; 20280; 20286; 30435; 30434; 20253; 20252; 11507; 11506; 20249; 30438; 20242; 20240; 20289; 30433; 11438; 20244; 20288; 11505; 30432; 30437; 30436]
 [20252; 30432; 30433; 30434; 30435; 30436; 30437; 30438].
Definition enc_cuts_c21 := mkCut [1583; 1582; 1581; 1580; 1579; 1578; 1577; 1576]
 [20187; 20189; 20208; 11574; 20171; 11573; 11571; 11572; 11568; 11564; 11563; 11557; 11558; 20188; 11559; 11554; 20194; 11550; 11561; 20190; 20195; 20196; 11560; 11570; 11566; 11567; 11565; 20156; 11562; 20155; 11569; 11556; 20200; 20215; 11555; 11553; 11552; 11551; 20191; 20201; 11548; 20170; 20222; 20219; 11547; 11549; 20193; 20199; 20213; 20214; 20179; 11546; 20178; 11545; 20169; 11540; 11544; 11543; 20168; 11539; 11542; 20216; 11541; 20163; 20159; 20162; 20158; 11538; 11537; 11536; 20167; 20166; 20161; 11529; 11535; 11533; 20198; 11527; 20206; 11534; 11532; 11531; 20165; 20157; 20164; 11530; 20160; 11528; 11526; 11525; 11524; 11523; 11522; 20204; 20175; 11521; 11520; 20211; 20186; 11519; 20209; 20180; 11518; 20203; 20182; 11517; 11516; 11515; 11514; 11513; 20205; 20217; 20183; 20177; 11512; 11511; 20210; 20173; 11510; 11509; 20192; 20197; 20202; 20207; 20212; 20218; 30456; 30455; 20185; 20184; 11577; 11576; 20181; 30459; 20174; 20172; 20221; 30454; 11508; 20176; 20220; 11575; 30453; 30458; 30457]
 [20184; 30453; 30454; 30455; 30456; 30457; 30458; 30459].
Definition enc_cuts_c22 := mkCut [1591; 1590; 1589; 1588; 1587; 1586; 1585; 1584]
 [20119; 20121; 11628; 20140; 11644; 20103; 11643; 11641; 20120; 11629; 11642; 11638; 11634; 11633; 11627; 11624; 20126; 11620; 11631; 20122; 20127; 20128; 11630; 11640; 11636; 11637; 11635; 20088; 11632; 20087; 11639; 11626; 20132; 20147; 11625; 11623; 11622; 11621; 20123; 20133; 11618; 20102; 20154; 20151; 11617; 11619; 20125; 20131; 20145; 20146; 20111; 11616; 20110; 11615; 20101; 11610; 11614; 11613; 20100; 11609; 11612; 20148; 11611; 20095; 20091; 20094; 20090; 11608; 11607; 11606; 20099; 20098; 20093; 11599; 11605; 11603; 20130; 11597; 20138; 11604; 11602; 11601; 20097; 20089; 20096; 11600; 20092; 11598; 11596; 11595; 11594; 11593; 11592; 20136; 20107; 11591; 11590; 20143; 20118; 11589; 20141; 20112; 11588; 20135; 20114; 11587; 11586; 11585; 11584; 11583; 20137; 20149; 20115; 20109; 11582; 11581; 20142; 20105; 11580; 11579; 20124; 20129; 20134; 20139; 20144; 20150; 30365; 30364; 20117; 20116; 11647; 11646; 20113; 30368; 20106; 20104; 20153; 30363; 11578; 20108; 20152; 11645; 30362; 30367; 30366]
 [20116; 30362; 30363; 30364; 30365; 30366; 30367; 30368].
Definition enc_cuts_c23 := mkCut [1599; 1598; 1597; 1596; 1595; 1594; 1593; 1592]
 [11712; 11711; 11714; 20035; 11713; 20051; 20053; 20072; 11708; 11704; 11703; 11697; 11701; 20054; 20059; 20060; 11700; 11691; 20055; 20065; 11698; 20052; 11699; 11710; 11706; 11707; 11705; 20020; 11702; 20019; 11709; 11696; 11695; 11694; 20058; 11693; 11692; 11690; 20064; 20079; 11688; 20034; 20086; 20083; 11687; 11689; 20057; 20063; 20077; 20078; 20043; 11686; 20042; 11685; 20033; 11680; 11684; 11683; 20032; 11679; 11682; 20080; 11681; 20027; 20023; 20026; 20022; 11678; 11677; 11676; 20031; 20030; 20025; 11669; 11675; 11673; 20062; 11667; 20070; 11674; 11672; 11671; 20029; 20021; 20028; 11670; 20024; 11668; 11666; 11665; 11664; 11663; 11662; 20068; 20039; 11661; 11660; 20075; 20050; 11659; 20073; 20044; 11658; 20067; 20046; 11657; 11656; 11655; 11654; 11653; 20069; 20081; 20047; 20041; 11652; 11651; 20074; 20037; 11650; 11649; 20056; 20061; 20066; 20071; 20076; 20082; 30386; 30385; 20049; 20048; 11717; 11716; 20045; 30389; 20038; 20036; 20085; 30384; 11648; 20040; 20084; 11715; 30383; 30388; 30387]
 [20048; 30383; 30384; 30385; 30386; 30387; 30388; 30389].
Definition enc_cuts_c24 := mkCut [1607; 1606; 1605; 1604; 1603; 1602; 1601; 1600]
 [11784; 19967; 19983; 19985; 20004; 11783; 11781; 11782; 11778; 11774; 11773; 11767; 11771; 19986; 19991; 19992; 11770; 11761; 19987; 19997; 11768; 19984; 11769; 11780; 11776; 11777; 11775; 19952; 11772; 19951; 11779; 11766; 11765; 11764; 19990; 11763; 11762; 11760; 19996; 20011; 11758; 19966; 20018; 20015; 11757; 11759; 19989; 19995; 20009; 20010; 19975; 11756; 19974; 11755; 19965; 11750; 11754; 11753; 19964; 11749; 11752; 20012; 11751; 19959; 19955; 19958; 19954; 11748; 11747; 11746; 19963; 19962; 19957; 11739; 11745; 11743; 19994; 11737; 20002; 11744; 11742; 11741; 19961; 19953; 19960; 11740; 19956; 11738; 11736; 11735; 11734; 11733; 11732; 20000; 19971; 11731; 11730; 20007; 19982; 11729; 20005; 19976; 11728; 19999; 19978; 11727; 11726; 11725; 11724; 11723; 20001; 20013; 19979; 19973; 11722; 11721; 20006; 19969; 11720; 11719; 19988; 19993; 19998; 20003; 20008; 20014; 30407; 30406; 19981; 19980; 11787; 11786; 19977; 30410; 19970; 19968; 20017; 30405; 11718; 19972; 20016; 11785; 30404; 30409; 30408]
 [19980; 30404; 30405; 30406; 30407; 30408; 30409; 30410].
Definition enc_cuts_c25 := mkCut [1615; 1614; 1613; 1612; 1611; 1610; 1609; 1608]
 [19915; 19917; 11838; 19936; 11854; 19899; 11853; 11851; 19916; 11839; 11852; 11848; 11844; 11843; 11837; 11834; 19922; 11830; 11841; 19918; 19923; 19924; 11840; 11850; 11846; 11847; 11845; 19884; 11842; 19883; 11849; 11836; 19928; 19943; 11835; 11833; 11832; 11831; 19919; 19929; 11828; 19898; 19950; 19947; 11827; 11829; 19921; 19927; 19941; 19942; 19907; 11826; 19906; 11825; 19897; 11820; 11824; 11823; 19896; 11819; 11822; 19944; 11821; 19891; 19887; 19890; 19886; 11818; 11817; 11816; 19895; 19894; 19889; 11809; 11815; 11813; 19926; 11807; 19934; 11814; 11812; 11811; 19893; 19885; 19892; 11810; 19888; 11808; 11806; 11805; 11804; 11803; 11802; 19932; 19903; 11801; 11800; 19939; 19914; 11799; 19937; 19908; 11798; 19931; 19910; 11797; 11796; 11795; 11794; 11793; 19933; 19945; 19911; 19905; 11792; 11791; 19938; 19901; 11790; 11789; 19920; 19925; 19930; 19935; 19940; 19946; 30428; 30427; 19913; 19912; 11857; 11856; 19909; 30431; 19902; 19900; 19949; 30426; 11788; 19904; 19948; 11855; 30425; 30430; 30429]
 [19912; 30425; 30426; 30427; 30428; 30429; 30430; 30431].
Definition enc_cuts_c26 := mkCut [1623; 1622; 1621; 1620; 1619; 1618; 1617; 1616]
 [11922; 11921; 11924; 19831; 11923; 19847; 19849; 19868; 11918; 11914; 11913; 11907; 11911; 19850; 19855; 19856; 11910; 11901; 19851; 19861; 11908; 19848; 11909; 11920; 11916; 11917; 11915; 19816; 11912; 19815; 11919; 11906; 11905; 11904; 19854; 11903; 11902; 11900; 19860; 19875; 11898; 19830; 19882; 19879; 11897; 11899; 19853; 19859; 19873; 19874; 19839; 11896; 19838; 11895; 19829; 11890; 11894; 11893; 19828; 11889; 11892; 19876; 11891; 19823; 19819; 19822; 19818; 11888; 11887; 11886; 19827; 19826; 19821; 11879; 11885; 11883; 19858; 11877; 19866; 11884; 11882; 11881; 19825; 19817; 19824; 11880; 19820; 11878; 11876; 11875; 11874; 11873; 11872; 19864; 19835; 11871; 11870; 19871; 19846; 11869; 19869; 19840; 11868; 19863; 19842; 11867; 11866; 11865; 11864; 11863; 19865; 19877; 19843; 19837; 11862; 11861; 19870; 19833; 11860; 11859; 19852; 19857; 19862; 19867; 19872; 19878; 30449; 30448; 19845; 19844; 11927; 11926; 19841; 30452; 19834; 19832; 19881; 30447; 11858; 19836; 19880; 11925; 30446; 30451; 30450]
 [19844; 30446; 30447; 30448; 30449; 30450; 30451; 30452].
Definition enc_cuts_c27 := mkCut [1631; 1630; 1629; 1628; 1627; 1626; 1625; 1624]
 [11992; 11991; 11994; 19763; 11993; 19779; 19781; 19800; 11988; 11984; 11983; 11977; 11981; 19782; 19787; 19788; 11980; 11971; 19783; 19793; 11978; 19780; 11979; 11990; 11986; 11987; 11985; 19748; 11982; 19747; 11989; 11976; 11975; 11974; 19786; 11973; 11972; 11970; 19792; 19807; 11968; 19762; 19814; 19811; 11967; 11969; 19785; 19791; 19805; 19806; 19771; 11966; 19770; 11965; 19761; 11960; 11964; 11963; 19760; 11959; 11962; 19808; 11961; 19755; 19751; 19754; 19750; 11958; 11957; 11956; 19759; 19758; 19753; 11949; 11955; 11953; 19790; 11947; 19798; 11954; 11952; 11951; 19757; 19749; 19756; 11950; 19752; 11948; 11946; 11945; 11944; 11943; 11942; 19796; 19767; 11941; 11940; 19803; 19778; 11939; 19801; 19772; 11938; 19795; 19774; 11937; 11936; 11935; 11934; 11933; 19797; 19809; 19775; 19769; 11932; 11931; 19802; 19765; 11930; 11929; 19784; 19789; 19794; 19799; 19804; 19810; 30358; 30357; 19777; 19776; 11997; 11996; 19773; 30361; 19766; 19764; 19813; 30356; 11928; 19768; 19812; 11995; 30355; 30360; 30359]
 [19776; 30355; 30356; 30357; 30358; 30359; 30360; 30361].
Definition enc_cuts_c28 := mkCut [1639; 1638; 1637; 1636; 1635; 1634; 1633; 1632]
 [19711; 19713; 12048; 19732; 12064; 19695; 12063; 12061; 19712; 12049; 12062; 12058; 12054; 12053; 12047; 12044; 19718; 12040; 12051; 19714; 19719; 19720; 12050; 12060; 12056; 12057; 12055; 19680; 12052; 19679; 12059; 12046; 19724; 19739; 12045; 12043; 12042; 12041; 19715; 19725; 12038; 19694; 19746; 19743; 12037; 12039; 19717; 19723; 19737; 19738; 19703; 12036; 19702; 12035; 19693; 12030; 12034; 12033; 19692; 12029; 12032; 19740; 12031; 19687; 19683; 19686; 19682; 12028; 12027; 12026; 19691; 19690; 19685; 12019; 12025; 12023; 19722; 12017; 19730; 12024; 12022; 12021; 19689; 19681; 19688; 12020; 19684; 12018; 12016; 12015; 12014; 12013; 12012; 19728; 19699; 12011; 12010; 19735; 19710; 12009; 19733; 19704; 12008; 19727; 19706; 12007; 12006; 12005; 12004; 12003; 19729; 19741; 19707; 19701; 12002; 12001; 19734; 19697; 12000; 11999; 19716; 19721; 19726; 19731; 19736; 19742; 30379; 30378; 19709; 19708; 12067; 12066; 19705; 30382; 19698; 19696; 19745; 30377; 11998; 19700; 19744; 12065; 30376; 30381; 30380]
 [19708; 30376; 30377; 30378; 30379; 30380; 30381; 30382].
Definition enc_cuts_c29 := mkCut [1647; 1646; 1645; 1644; 1643; 1642; 1641; 1640]
 [12132; 12131; 12134; 19627; 12133; 19643; 19645; 19664; 12128; 12124; 12123; 12117; 12121; 19646; 19651; 19652; 12120; 12111; 19647; 19657; 12118; 19644; 12119; 12130; 12126; 12127; 12125; 19612; 12122; 19611; 12129; 12116; 12115; 12114; 19650; 12113; 12112; 12110; 19656; 19671; 12108; 19626; 19678; 19675; 12107; 12109; 19649; 19655; 19669; 19670; 19635; 12106; 19634; 12105; 19625; 12100; 12104; 12103; 19624; 12099; 12102; 19672; 12101; 19619; 19615; 19618; 19614; 12098; 12097; 12096; 19623; 19622; 19617; 12089; 12095; 12093; 19654; 12087; 19662; 12094; 12092; 12091; 19621; 19613; 19620; 12090; 19616; 12088; 12086; 12085; 12084; 12083; 12082; 19660; 19631; 12081; 12080; 19667; 19642; 12079; 19665; 19636; 12078; 19659; 19638; 12077; 12076; 12075; 12074; 12073; 19661; 19673; 19639; 19633; 12072; 12071; 19666; 19629; 12070; 12069; 19648; 19653; 19658; 19663; 19668; 19674; 30400; 30399; 19641; 19640; 12137; 12136; 19637; 30403; 19630; 19628; 19677; 30398; 12068; 19632; 19676; 12135; 30397; 30402; 30401]
 [19640; 30397; 30398; 30399; 30400; 30401; 30402; 30403].
Definition enc_cuts_c30 := mkCut [1655; 1654; 1653; 1652; 1651; 1650; 1649; 1648]
 [12202; 12201; 12204; 19559; 12203; 19575; 19577; 19596; 12198; 12194; 12193; 12187; 12191; 19578; 19583; 19584; 12190; 12181; 19579; 19589; 12188; 19576; 12189; 12200; 12196; 12197; 12195; 19544; 12192; 19543; 12199; 12186; 12185; 12184; 19582; 12183; 12182; 12180; 19588; 19603; 12178; 19558; 19610; 19607; 12177; 12179; 19581; 19587; 19601; 19602; 19567; 12176; 19566; 12175; 19557; 12170; 12174; 12173; 19556; 12169; 12172; 19604; 12171; 19551; 19547; 19550; 19546; 12168; 12167; 12166; 19555; 19554; 19549; 12159; 12165; 12163; 19586; 12157; 19594; 12164; 12162; 12161; 19553; 19545; 19552; 12160; 19548; 12158; 12156; 12155; 12154; 12153; 12152; 19592; 19563; 12151; 12150; 19599; 19574; 12149; 19597; 19568; 12148; 19591; 19570; 12147; 12146; 12145; 12144; 12143; 19593; 19605; 19571; 19565; 12142; 12141; 19598; 19561; 12140; 12139; 19580; 19585; 19590; 19595; 19600; 19606; 30421; 30420; 19573; 19572; 12207; 12206; 19569; 30424; 19562; 19560; 19609; 30419; 12138; 19564; 19608; 12205; 30418; 30423; 30422]
 [19572; 30418; 30419; 30420; 30421; 30422; 30423; 30424].
Definition enc_cuts_c31 := mkCut [1663; 1662; 1661; 1660; 1659; 1658; 1657; 1656]
 [19507; 19509; 19528; 12274; 19491; 12273; 12271; 12272; 12268; 12264; 12263; 12257; 12261; 19510; 19515; 19516; 12260; 12251; 19511; 19521; 12258; 19508; 12259; 12270; 12266; 12267; 12265; 19476; 12262; 19475; 12269; 12256; 12255; 12254; 19514; 12253; 12252; 12250; 19520; 19535; 12248; 19490; 19542; 19539; 12247; 12249; 19513; 19519; 19533; 19534; 19499; 12246; 19498; 12245; 19489; 12240; 12244; 12243; 19488; 12239; 12242; 19536; 12241; 19483; 19479; 19482; 19478; 12238; 12237; 12236; 19487; 19486; 19481; 12229; 12235; 12233; 19518; 12227; 19526; 12234; 12232; 12231; 19485; 19477; 19484; 12230; 19480; 12228; 12226; 12225; 12224; 12223; 12222; 19524; 19495; 12221; 12220; 19531; 19506; 12219; 19529; 19500; 12218; 19523; 19502; 12217; 12216; 12215; 12214; 12213; 19525; 19537; 19503; 19497; 12212; 12211; 19530; 19493; 12210; 12209; 19512; 19517; 19522; 19527; 19532; 19538; 30442; 30441; 19505; 19504; 12277; 12276; 19501; 30445; 19494; 19492; 19541; 30440; 12208; 19496; 19540; 12275; 30439; 30444; 30443]
 [19504; 30439; 30440; 30441; 30442; 30443; 30444; 30445].
Definition enc_cuts_c32 := mkCut [2183; 2182; 2181; 2180; 2179; 2178; 2177; 2176]
 [21636; 21615; 21617; 21599; 10104; 10088; 10091; 21618; 21624; 10090; 10100; 10096; 21583; 10099; 10085; 10083; 10103; 10101; 21616; 10089; 10102; 10098; 10097; 10095; 10094; 10093; 21584; 10092; 10087; 21623; 10086; 10084; 21622; 10082; 10081; 21619; 21629; 10080; 21628; 21643; 10078; 21598; 21650; 21647; 10077; 10079; 21621; 21627; 21641; 21642; 21607; 10076; 21606; 10075; 21597; 10070; 10074; 10073; 21596; 10069; 10072; 21644; 10071; 21591; 21587; 21590; 21586; 10068; 10067; 10066; 21595; 21594; 21589; 10059; 10065; 10063; 21626; 10057; 21634; 10064; 10062; 10061; 21593; 21585; 21592; 10060; 21588; 10058; 10056; 10055; 10054; 10053; 10052; 21632; 21603; 10051; 10050; 21639; 21614; 10049; 21637; 21608; 10048; 21631; 21610; 10047; 10046; 10045; 10044; 10043; 21633; 21645; 21611; 21605; 10042; 10041; 21638; 21601; 10040; 10039; 21620; 21625; 21630; 21635; 21640; 21646; 30223; 30222; 21613; 21612; 10107; 10106; 21609; 30226; 21602; 21600; 21649; 30221; 10038; 21604; 21648; 10105; 30220; 30225; 30224]
 [21612; 30220; 30221; 30222; 30223; 30224; 30225; 30226].
Definition enc_cuts_c33 := mkCut [2191; 2190; 2189; 2188; 2187; 2186; 2185; 2184]
 [21556; 10170; 10171; 21548; 10167; 21550; 10172; 10174; 10159; 21516; 21515; 10169; 10155; 10150; 21531; 10173; 10166; 21547; 21549; 10161; 10158; 10160; 21568; 10168; 10165; 10164; 10163; 10162; 10157; 21555; 10156; 21560; 21575; 10154; 21554; 10153; 10152; 10151; 21551; 21561; 10148; 21530; 21582; 21579; 10147; 10149; 21553; 21559; 21573; 21574; 21539; 10146; 21538; 10145; 21529; 10140; 10144; 10143; 21528; 10139; 10142; 21576; 10141; 21523; 21519; 21522; 21518; 10138; 10137; 10136; 21527; 21526; 21521; 10129; 10135; 10133; 21558; 10127; 21566; 10134; 10132; 10131; 21525; 21517; 21524; 10130; 21520; 10128; 10126; 10125; 10124; 10123; 10122; 21564; 21535; 10121; 10120; 21571; 21546; 10119; 21569; 21540; 10118; 21563; 21542; 10117; 10116; 10115; 10114; 10113; 21565; 21577; 21543; 21537; 10112; 10111; 21570; 21533; 10110; 10109; 21552; 21557; 21562; 21567; 21572; 21578; 30132; 30131; 21545; 21544; 10177; 10176; 21541; 30135; 21534; 21532; 21581; 30130; 10108; 21536; 21580; 10175; 30129; 30134; 30133]
 [21544; 30129; 30130; 30131; 30132; 30133; 30134; 30135].
Definition enc_cuts_c34 := mkCut [2199; 2198; 2197; 2196; 2195; 2194; 2193; 2192]
 [21500; 21479; 21481; 21463; 10244; 10228; 10231; 21482; 21488; 10230; 10240; 10236; 21447; 10239; 10225; 10223; 10243; 10241; 21480; 10229; 10242; 10238; 10237; 10235; 10234; 10233; 21448; 10232; 10227; 21487; 10226; 10224; 21486; 10222; 10221; 21483; 21493; 10220; 21492; 21507; 10218; 21462; 21514; 21511; 10217; 10219; 21485; 21491; 21505; 21506; 21471; 10216; 21470; 10215; 21461; 10210; 10214; 10213; 21460; 10209; 10212; 21508; 10211; 21455; 21451; 21454; 21450; 10208; 10207; 10206; 21459; 21458; 21453; 10199; 10205; 10203; 21490; 10197; 21498; 10204; 10202; 10201; 21457; 21449; 21456; 10200; 21452; 10198; 10196; 10195; 10194; 10193; 10192; 21496; 21467; 10191; 10190; 21503; 21478; 10189; 21501; 21472; 10188; 21495; 21474; 10187; 10186; 10185; 10184; 10183; 21497; 21509; 21475; 21469; 10182; 10181; 21502; 21465; 10180; 10179; 21484; 21489; 21494; 21499; 21504; 21510; 30153; 30152; 21477; 21476; 10247; 10246; 21473; 30156; 21466; 21464; 21513; 30151; 10178; 21468; 21512; 10245; 30150; 30155; 30154]
 [21476; 30150; 30151; 30152; 30153; 30154; 30155; 30156].
Definition enc_cuts_c35 := mkCut [2207; 2206; 2205; 2204; 2203; 2202; 2201; 2200]
 [21412; 21420; 10310; 10307; 10311; 21414; 10312; 10314; 10299; 21380; 21379; 10309; 10295; 10290; 21395; 10313; 10306; 21411; 21413; 10301; 10298; 10300; 21432; 10308; 10305; 10304; 10303; 10302; 10297; 21419; 10296; 21424; 21439; 10294; 21418; 10293; 10292; 10291; 21415; 21425; 10288; 21394; 21446; 21443; 10287; 10289; 21417; 21423; 21437; 21438; 21403; 10286; 21402; 10285; 21393; 10280; 10284; 10283; 21392; 10279; 10282; 21440; 10281; 21387; 21383; 21386; 21382; 10278; 10277; 10276; 21391; 21390; 21385; 10269; 10275; 10273; 21422; 10267; 21430; 10274; 10272; 10271; 21389; 21381; 21388; 10270; 21384; 10268; 10266; 10265; 10264; 10263; 10262; 21428; 21399; 10261; 10260; 21435; 21410; 10259; 21433; 21404; 10258; 21427; 21406; 10257; 10256; 10255; 10254; 10253; 21429; 21441; 21407; 21401; 10252; 10251; 21434; 21397; 10250; 10249; 21416; 21421; 21426; 21431; 21436; 21442; 30174; 30173; 21409; 21408; 10317; 10316; 21405; 30177; 21398; 21396; 21445; 30172; 10248; 21400; 21444; 10315; 30171; 30176; 30175]
 [21408; 30171; 30172; 30173; 30174; 30175; 30176; 30177].
Definition enc_cuts_c36 := mkCut [2215; 2214; 2213; 2212; 2211; 2210; 2209; 2208]
 [21364; 21343; 21345; 21327; 10384; 10368; 10371; 21346; 21352; 10370; 10380; 10376; 21311; 10379; 10365; 10363; 10383; 10381; 21344; 10369; 10382; 10378; 10377; 10375; 10374; 10373; 21312; 10372; 10367; 21351; 10366; 10364; 21350; 10362; 10361; 21347; 21357; 10360; 21356; 21371; 10358; 21326; 21378; 21375; 10357; 10359; 21349; 21355; 21369; 21370; 21335; 10356; 21334; 10355; 21325; 10350; 10354; 10353; 21324; 10349; 10352; 21372; 10351; 21319; 21315; 21318; 21314; 10348; 10347; 10346; 21323; 21322; 21317; 10339; 10345; 10343; 21354; 10337; 21362; 10344; 10342; 10341; 21321; 21313; 21320; 10340; 21316; 10338; 10336; 10335; 10334; 10333; 10332; 21360; 21331; 10331; 10330; 21367; 21342; 10329; 21365; 21336; 10328; 21359; 21338; 10327; 10326; 10325; 10324; 10323; 21361; 21373; 21339; 21333; 10322; 10321; 21366; 21329; 10320; 10319; 21348; 21353; 21358; 21363; 21368; 21374; 30195; 30194; 21341; 21340; 10387; 10386; 21337; 30198; 21330; 21328; 21377; 30193; 10318; 21332; 21376; 10385; 30192; 30197; 30196]
 [21340; 30192; 30193; 30194; 30195; 30196; 30197; 30198].
Definition enc_cuts_c37 := mkCut [2223; 2222; 2221; 2220; 2219; 2218; 2217; 2216]
 [21284; 10450; 10451; 21276; 10447; 21278; 10452; 10454; 10439; 21244; 21243; 10449; 10435; 10430; 21259; 10453; 10446; 21275; 21277; 10441; 10438; 10440; 21296; 10448; 10445; 10444; 10443; 10442; 10437; 21283; 10436; 21288; 21303; 10434; 21282; 10433; 10432; 10431; 21279; 21289; 10428; 21258; 21310; 21307; 10427; 10429; 21281; 21287; 21301; 21302; 21267; 10426; 21266; 10425; 21257; 10420; 10424; 10423; 21256; 10419; 10422; 21304; 10421; 21251; 21247; 21250; 21246; 10418; 10417; 10416; 21255; 21254; 21249; 10409; 10415; 10413; 21286; 10407; 21294; 10414; 10412; 10411; 21253; 21245; 21252; 10410; 21248; 10408; 10406; 10405; 10404; 10403; 10402; 21292; 21263; 10401; 10400; 21299; 21274; 10399; 21297; 21268; 10398; 21291; 21270; 10397; 10396; 10395; 10394; 10393; 21293; 21305; 21271; 21265; 10392; 10391; 21298; 21261; 10390; 10389; 21280; 21285; 21290; 21295; 21300; 21306; 30216; 30215; 21273; 21272; 10457; 10456; 21269; 30219; 21262; 21260; 21309; 30214; 10388; 21264; 21308; 10455; 30213; 30218; 30217]
 [21272; 30213; 30214; 30215; 30216; 30217; 30218; 30219].
Definition enc_cuts_c38 := mkCut [2231; 2230; 2229; 2228; 2227; 2226; 2225; 2224]
 [21228; 21207; 21209; 21191; 10524; 10508; 10511; 21210; 21216; 10510; 10520; 10516; 21175; 10519; 10505; 10503; 10523; 10521; 21208; 10509; 10522; 10518; 10517; 10515; 10514; 10513; 21176; 10512; 10507; 21215; 10506; 10504; 21214; 10502; 10501; 21211; 21221; 10500; 21220; 21235; 10498; 21190; 21242; 21239; 10497; 10499; 21213; 21219; 21233; 21234; 21199; 10496; 21198; 10495; 21189; 10490; 10494; 10493; 21188; 10489; 10492; 21236; 10491; 21183; 21179; 21182; 21178; 10488; 10487; 10486; 21187; 21186; 21181; 10479; 10485; 10483; 21218; 10477; 21226; 10484; 10482; 10481; 21185; 21177; 21184; 10480; 21180; 10478; 10476; 10475; 10474; 10473; 10472; 21224; 21195; 10471; 10470; 21231; 21206; 10469; 21229; 21200; 10468; 21223; 21202; 10467; 10466; 10465; 10464; 10463; 21225; 21237; 21203; 21197; 10462; 10461; 21230; 21193; 10460; 10459; 21212; 21217; 21222; 21227; 21232; 21238; 30125; 30124; 21205; 21204; 10527; 10526; 21201; 30128; 21194; 21192; 21241; 30123; 10458; 21196; 21240; 10525; 30122; 30127; 30126]
 [21204; 30122; 30123; 30124; 30125; 30126; 30127; 30128].
Definition enc_cuts_c39 := mkCut [2239; 2238; 2237; 2236; 2235; 2234; 2233; 2232]
 [21148; 10590; 10591; 21140; 10587; 21142; 10592; 10594; 10579; 21108; 21107; 10589; 10575; 10570; 21123; 10593; 10586; 21139; 21141; 10581; 10578; 10580; 21160; 10588; 10585; 10584; 10583; 10582; 10577; 21147; 10576; 21152; 21167; 10574; 21146; 10573; 10572; 10571; 21143; 21153; 10568; 21122; 21174; 21171; 10567; 10569; 21145; 21151; 21165; 21166; 21131; 10566; 21130; 10565; 21121; 10560; 10564; 10563; 21120; 10559; 10562; 21168; 10561; 21115; 21111; 21114; 21110; 10558; 10557; 10556; 21119; 21118; 21113; 10549; 10555; 10553; 21150; 10547; 21158; 10554; 10552; 10551; 21117; 21109; 21116; 10550; 21112; 10548; 10546; 10545; 10544; 10543; 10542; 21156; 21127; 10541; 10540; 21163; 21138; 10539; 21161; 21132; 10538; 21155; 21134; 10537; 10536; 10535; 10534; 10533; 21157; 21169; 21135; 21129; 10532; 10531; 21162; 21125; 10530; 10529; 21144; 21149; 21154; 21159; 21164; 21170; 30146; 30145; 21137; 21136; 10597; 10596; 21133; 30149; 21126; 21124; 21173; 30144; 10528; 21128; 21172; 10595; 30143; 30148; 30147]
 [21136; 30143; 30144; 30145; 30146; 30147; 30148; 30149].
Definition enc_cuts_c40 := mkCut [2247; 2246; 2245; 2244; 2243; 2242; 2241; 2240]
 [21092; 21071; 21073; 21055; 10664; 10648; 10651; 21074; 21080; 10650; 10660; 10656; 21039; 10659; 10645; 10643; 10663; 10661; 21072; 10649; 10662; 10658; 10657; 10655; 10654; 10653; 21040; 10652; 10647; 21079; 10646; 10644; 21078; 10642; 10641; 21075; 21085; 10640; 21084; 21099; 10638; 21054; 21106; 21103; 10637; 10639; 21077; 21083; 21097; 21098; 21063; 10636; 21062; 10635; 21053; 10630; 10634; 10633; 21052; 10629; 10632; 21100; 10631; 21047; 21043; 21046; 21042; 10628; 10627; 10626; 21051; 21050; 21045; 10619; 10625; 10623; 21082; 10617; 21090; 10624; 10622; 10621; 21049; 21041; 21048; 10620; 21044; 10618; 10616; 10615; 10614; 10613; 10612; 21088; 21059; 10611; 10610; 21095; 21070; 10609; 21093; 21064; 10608; 21087; 21066; 10607; 10606; 10605; 10604; 10603; 21089; 21101; 21067; 21061; 10602; 10601; 21094; 21057; 10600; 10599; 21076; 21081; 21086; 21091; 21096; 21102; 30167; 30166; 21069; 21068; 10667; 10666; 21065; 30170; 21058; 21056; 21105; 30165; 10598; 21060; 21104; 10665; 30164; 30169; 30168]
 [21068; 30164; 30165; 30166; 30167; 30168; 30169; 30170].
Definition enc_cuts_c41 := mkCut [2255; 2254; 2253; 2252; 2251; 2250; 2249; 2248]
 [21012; 10730; 10731; 21004; 10727; 21006; 10732; 10734; 10719; 20972; 20971; 10729; 10715; 10710; 20987; 10733; 10726; 21003; 21005; 10721; 10718; 10720; 21024; 10728; 10725; 10724; 10723; 10722; 10717; 21011; 10716; 21016; 21031; 10714; 21010; 10713; 10712; 10711; 21007; 21017; 10708; 20986; 21038; 21035; 10707; 10709; 21009; 21015; 21029; 21030; 20995; 10706; 20994; 10705; 20985; 10700; 10704; 10703; 20984; 10699; 10702; 21032; 10701; 20979; 20975; 20978; 20974; 10698; 10697; 10696; 20983; 20982; 20977; 10689; 10695; 10693; 21014; 10687; 21022; 10694; 10692; 10691; 20981; 20973; 20980; 10690; 20976; 10688; 10686; 10685; 10684; 10683; 10682; 21020; 20991; 10681; 10680; 21027; 21002; 10679; 21025; 20996; 10678; 21019; 20998; 10677; 10676; 10675; 10674; 10673; 21021; 21033; 20999; 20993; 10672; 10671; 21026; 20989; 10670; 10669; 21008; 21013; 21018; 21023; 21028; 21034; 30188; 30187; 21001; 21000; 10737; 10736; 20997; 30191; 20990; 20988; 21037; 30186; 10668; 20992; 21036; 10735; 30185; 30190; 30189]
 [21000; 30185; 30186; 30187; 30188; 30189; 30190; 30191].
Definition enc_cuts_c42 := mkCut [2263; 2262; 2261; 2260; 2259; 2258; 2257; 2256]
 [20956; 20935; 20937; 20919; 10804; 10788; 10791; 20938; 20944; 10790; 10800; 10796; 20903; 10799; 10785; 10783; 10803; 10801; 20936; 10789; 10802; 10798; 10797; 10795; 10794; 10793; 20904; 10792; 10787; 20943; 10786; 10784; 20942; 10782; 10781; 20939; 20949; 10780; 20948; 20963; 10778; 20918; 20970; 20967; 10777; 10779; 20941; 20947; 20961; 20962; 20927; 10776; 20926; 10775; 20917; 10770; 10774; 10773; 20916; 10769; 10772; 20964; 10771; 20911; 20907; 20910; 20906; 10768; 10767; 10766; 20915; 20914; 20909; 10759; 10765; 10763; 20946; 10757; 20954; 10764; 10762; 10761; 20913; 20905; 20912; 10760; 20908; 10758; 10756; 10755; 10754; 10753; 10752; 20952; 20923; 10751; 10750; 20959; 20934; 10749; 20957; 20928; 10748; 20951; 20930; 10747; 10746; 10745; 10744; 10743; 20953; 20965; 20931; 20925; 10742; 10741; 20958; 20921; 10740; 10739; 20940; 20945; 20950; 20955; 20960; 20966; 30209; 30208; 20933; 20932; 10807; 10806; 20929; 30212; 20922; 20920; 20969; 30207; 10738; 20924; 20968; 10805; 30206; 30211; 30210]
 [20932; 30206; 30207; 30208; 30209; 30210; 30211; 30212].
Definition enc_cuts_c43 := mkCut [2271; 2270; 2269; 2268; 2267; 2266; 2265; 2264]
 [20876; 10870; 10871; 20868; 10867; 20870; 10872; 10874; 10859; 20836; 20835; 10869; 10855; 10850; 20851; 10873; 10866; 20867; 20869; 10861; 10858; 10860; 20888; 10868; 10865; 10864; 10863; 10862; 10857; 20875; 10856; 20880; 20895; 10854; 20874; 10853; 10852; 10851; 20871; 20881; 10848; 20850; 20902; 20899; 10847; 10849; 20873; 20879; 20893; 20894; 20859; 10846; 20858; 10845; 20849; 10840; 10844; 10843; 20848; 10839; 10842; 20896; 10841; 20843; 20839; 20842; 20838; 10838; 10837; 10836; 20847; 20846; 20841; 10829; 10835; 10833; 20878; 10827; 20886; 10834; 10832; 10831; 20845; 20837; 20844; 10830; 20840; 10828; 10826; 10825; 10824; 10823; 10822; 20884; 20855; 10821; 10820; 20891; 20866; 10819; 20889; 20860; 10818; 20883; 20862; 10817; 10816; 10815; 10814; 10813; 20885; 20897; 20863; 20857; 10812; 10811; 20890; 20853; 10810; 10809; 20872; 20877; 20882; 20887; 20892; 20898; 30118; 30117; 20865; 20864; 10877; 10876; 20861; 30121; 20854; 20852; 20901; 30116; 10808; 20856; 20900; 10875; 30115; 30120; 30119]
 [20864; 30115; 30116; 30117; 30118; 30119; 30120; 30121].
Definition enc_cuts_c44 := mkCut [2279; 2278; 2277; 2276; 2275; 2274; 2273; 2272]
 [20820; 20799; 20801; 20783; 10944; 10928; 10931; 20802; 20808; 10930; 10940; 10936; 20767; 10939; 10925; 10923; 10943; 10941; 20800; 10929; 10942; 10938; 10937; 10935; 10934; 10933; 20768; 10932; 10927; 20807; 10926; 10924; 20806; 10922; 10921; 20803; 20813; 10920; 20812; 20827; 10918; 20782; 20834; 20831; 10917; 10919; 20805; 20811; 20825; 20826; 20791; 10916; 20790; 10915; 20781; 10910; 10914; 10913; 20780; 10909; 10912; 20828; 10911; 20775; 20771; 20774; 20770; 10908; 10907; 10906; 20779; 20778; 20773; 10899; 10905; 10903; 20810; 10897; 20818; 10904; 10902; 10901; 20777; 20769; 20776; 10900; 20772; 10898; 10896; 10895; 10894; 10893; 10892; 20816; 20787; 10891; 10890; 20823; 20798; 10889; 20821; 20792; 10888; 20815; 20794; 10887; 10886; 10885; 10884; 10883; 20817; 20829; 20795; 20789; 10882; 10881; 20822; 20785; 10880; 10879; 20804; 20809; 20814; 20819; 20824; 20830; 30139; 30138; 20797; 20796; 10947; 10946; 20793; 30142; 20786; 20784; 20833; 30137; 10878; 20788; 20832; 10945; 30136; 30141; 30140]
 [20796; 30136; 30137; 30138; 30139; 30140; 30141; 30142].
Definition enc_cuts_c45 := mkCut [2287; 2286; 2285; 2284; 2283; 2282; 2281; 2280]
 [20740; 11010; 11011; 20732; 11007; 20734; 11012; 11014; 10999; 20700; 20699; 11009; 10995; 10990; 20715; 11013; 11006; 20731; 20733; 11001; 10998; 11000; 20752; 11008; 11005; 11004; 11003; 11002; 10997; 20739; 10996; 20744; 20759; 10994; 20738; 10993; 10992; 10991; 20735; 20745; 10988; 20714; 20766; 20763; 10987; 10989; 20737; 20743; 20757; 20758; 20723; 10986; 20722; 10985; 20713; 10980; 10984; 10983; 20712; 10979; 10982; 20760; 10981; 20707; 20703; 20706; 20702; 10978; 10977; 10976; 20711; 20710; 20705; 10969; 10975; 10973; 20742; 10967; 20750; 10974; 10972; 10971; 20709; 20701; 20708; 10970; 20704; 10968; 10966; 10965; 10964; 10963; 10962; 20748; 20719; 10961; 10960; 20755; 20730; 10959; 20753; 20724; 10958; 20747; 20726; 10957; 10956; 10955; 10954; 10953; 20749; 20761; 20727; 20721; 10952; 10951; 20754; 20717; 10950; 10949; 20736; 20741; 20746; 20751; 20756; 20762; 30160; 30159; 20729; 20728; 11017; 11016; 20725; 30163; 20718; 20716; 20765; 30158; 10948; 20720; 20764; 11015; 30157; 30162; 30161]
 [20728; 30157; 30158; 30159; 30160; 30161; 30162; 30163].
Definition enc_cuts_c46 := mkCut [2295; 2294; 2293; 2292; 2291; 2290; 2289; 2288]
 [20647; 11084; 20666; 20631; 11081; 20664; 11069; 11082; 20632; 11060; 20672; 11080; 11077; 11079; 11065; 11083; 11076; 20663; 20665; 11071; 11068; 11070; 20684; 11078; 11075; 11074; 11073; 11072; 11067; 20671; 11066; 20676; 20691; 11064; 20670; 11063; 11062; 11061; 20667; 20677; 11058; 20646; 20698; 20695; 11057; 11059; 20669; 20675; 20689; 20690; 20655; 11056; 20654; 11055; 20645; 11050; 11054; 11053; 20644; 11049; 11052; 20692; 11051; 20639; 20635; 20638; 20634; 11048; 11047; 11046; 20643; 20642; 20637; 11039; 11045; 11043; 20674; 11037; 20682; 11044; 11042; 11041; 20641; 20633; 20640; 11040; 20636; 11038; 11036; 11035; 11034; 11033; 11032; 20680; 20651; 11031; 11030; 20687; 20662; 11029; 20685; 20656; 11028; 20679; 20658; 11027; 11026; 11025; 11024; 11023; 20681; 20693; 20659; 20653; 11022; 11021; 20686; 20649; 11020; 11019; 20668; 20673; 20678; 20683; 20688; 20694; 30181; 30180; 20661; 20660; 11087; 11086; 20657; 30184; 20650; 20648; 20697; 30179; 11018; 20652; 20696; 11085; 30178; 30183; 30182]
 [20660; 30178; 30179; 30180; 30181; 30182; 30183; 30184].
Definition enc_cuts_c47 := mkCut [2303; 2302; 2301; 2300; 2299; 2298; 2297; 2296]
 [20604; 11150; 11151; 20596; 11147; 20598; 11152; 11154; 11139; 20564; 20563; 11149; 11135; 11130; 20579; 11153; 11146; 20595; 20597; 11141; 11138; 11140; 20616; 11148; 11145; 11144; 11143; 11142; 11137; 20603; 11136; 20608; 20623; 11134; 20602; 11133; 11132; 11131; 20599; 20609; 11128; 20578; 20630; 20627; 11127; 11129; 20601; 20607; 20621; 20622; 20587; 11126; 20586; 11125; 20577; 11120; 11124; 11123; 20576; 11119; 11122; 20624; 11121; 20571; 20567; 20570; 20566; 11118; 11117; 11116; 20575; 20574; 20569; 11109; 11115; 11113; 20606; 11107; 20614; 11114; 11112; 11111; 20573; 20565; 20572; 11110; 20568; 11108; 11106; 11105; 11104; 11103; 11102; 20612; 20583; 11101; 11100; 20619; 20594; 11099; 20617; 20588; 11098; 20611; 20590; 11097; 11096; 11095; 11094; 11093; 20613; 20625; 20591; 20585; 11092; 11091; 20618; 20581; 11090; 11089; 20600; 20605; 20610; 20615; 20620; 20626; 30202; 30201; 20593; 20592; 11157; 11156; 20589; 30205; 20582; 20580; 20629; 30200; 11088; 20584; 20628; 11155; 30199; 30204; 30203]
 [20592; 30199; 30200; 30201; 30202; 30203; 30204; 30205].
Definition enc_cuts_c48 := mkCut [2055; 2054; 2053; 2052; 2051; 2050; 2049; 2048]
 [22724; 22703; 22705; 22687; 8984; 8968; 8971; 22706; 22712; 8970; 8980; 8976; 22671; 8979; 8965; 8963; 8983; 8981; 22704; 8969; 8982; 8978; 8977; 8975; 8974; 8973; 22672; 8972; 8967; 22711; 8966; 8964; 22710; 8962; 8961; 22707; 22717; 8960; 22716; 22731; 8958; 22686; 22738; 22735; 8957; 8959; 22709; 22715; 22729; 22730; 22695; 8956; 22694; 8955; 22685; 8950; 8954; 8953; 22684; 8949; 8952; 22732; 8951; 22679; 22675; 22678; 22674; 8948; 8947; 8946; 22683; 22682; 22677; 8939; 8945; 8943; 22714; 8937; 22722; 8944; 8942; 8941; 22681; 22673; 22680; 8940; 22676; 8938; 8936; 8935; 8934; 8933; 8932; 22720; 22691; 8931; 8930; 22727; 22702; 8929; 22725; 22696; 8928; 22719; 22698; 8927; 8926; 8925; 8924; 8923; 22721; 22733; 22699; 22693; 8922; 8921; 22726; 22689; 8920; 8919; 22708; 22713; 22718; 22723; 22728; 22734; 29983; 29982; 22701; 22700; 8987; 8986; 22697; 29986; 22690; 22688; 22737; 29981; 8918; 22692; 22736; 8985; 29980; 29985; 29984]
 [22700; 29980; 29981; 29982; 29983; 29984; 29985; 29986].
Definition enc_cuts_c49 := mkCut [2063; 2062; 2061; 2060; 2059; 2058; 2057; 2056]
 [22635; 22637; 22656; 9054; 22619; 9038; 9041; 22638; 22644; 9040; 9050; 9046; 22603; 9049; 9035; 9033; 9053; 9051; 22636; 9039; 9052; 9048; 9047; 9045; 9044; 9043; 22604; 9042; 9037; 22643; 9036; 9034; 22642; 9032; 9031; 22639; 22649; 9030; 22648; 22663; 9028; 22618; 22670; 22667; 9027; 9029; 22641; 22647; 22661; 22662; 22627; 9026; 22626; 9025; 22617; 9020; 9024; 9023; 22616; 9019; 9022; 22664; 9021; 22611; 22607; 22610; 22606; 9018; 9017; 9016; 22615; 22614; 22609; 9009; 9015; 9013; 22646; 9007; 22654; 9014; 9012; 9011; 22613; 22605; 22612; 9010; 22608; 9008; 9006; 9005; 9004; 9003; 9002; 22652; 22623; 9001; 9000; 22659; 22634; 8999; 22657; 22628; 8998; 22651; 22630; 8997; 8996; 8995; 8994; 8993; 22653; 22665; 22631; 22625; 8992; 8991; 22658; 22621; 8990; 8989; 22640; 22645; 22650; 22655; 22660; 22666; 29892; 29891; 22633; 22632; 9057; 9056; 22629; 29895; 22622; 22620; 22669; 29890; 8988; 22624; 22668; 9055; 29889; 29894; 29893]
 [22632; 29889; 29890; 29891; 29892; 29893; 29894; 29895].
Definition enc_cuts_c50 := mkCut [2071; 2070; 2069; 2068; 2067; 2066; 2065; 2064]
 [22588; 22567; 22569; 22551; 9124; 9108; 9111; 22570; 22576; 9110; 9120; 9116; 22535; 9119; 9105; 9103; 9123; 9121; 22568; 9109; 9122; 9118; 9117; 9115; 9114; 9113; 22536; 9112; 9107; 22575; 9106; 9104; 22574; 9102; 9101; 22571; 22581; 9100; 22580; 22595; 9098; 22550; 22602; 22599; 9097; 9099; 22573; 22579; 22593; 22594; 22559; 9096; 22558; 9095; 22549; 9090; 9094; 9093; 22548; 9089; 9092; 22596; 9091; 22543; 22539; 22542; 22538; 9088; 9087; 9086; 22547; 22546; 22541; 9079; 9085; 9083; 22578; 9077; 22586; 9084; 9082; 9081; 22545; 22537; 22544; 9080; 22540; 9078; 9076; 9075; 9074; 9073; 9072; 22584; 22555; 9071; 9070; 22591; 22566; 9069; 22589; 22560; 9068; 22583; 22562; 9067; 9066; 9065; 9064; 9063; 22585; 22597; 22563; 22557; 9062; 9061; 22590; 22553; 9060; 9059; 22572; 22577; 22582; 22587; 22592; 22598; 29913; 29912; 22565; 22564; 9127; 9126; 22561; 29916; 22554; 22552; 22601; 29911; 9058; 22556; 22600; 9125; 29910; 29915; 29914]
 [22564; 29910; 29911; 29912; 29913; 29914; 29915; 29916].
Definition enc_cuts_c51 := mkCut [2079; 2078; 2077; 2076; 2075; 2074; 2073; 2072]
 [22500; 22508; 9190; 9187; 9191; 22502; 9192; 9194; 9179; 22468; 22467; 9189; 9175; 9170; 22483; 9193; 9186; 22499; 22501; 9181; 9178; 9180; 22520; 9188; 9185; 9184; 9183; 9182; 9177; 22507; 9176; 22512; 22527; 9174; 22506; 9173; 9172; 9171; 22503; 22513; 9168; 22482; 22534; 22531; 9167; 9169; 22505; 22511; 22525; 22526; 22491; 9166; 22490; 9165; 22481; 9160; 9164; 9163; 22480; 9159; 9162; 22528; 9161; 22475; 22471; 22474; 22470; 9158; 9157; 9156; 22479; 22478; 22473; 9149; 9155; 9153; 22510; 9147; 22518; 9154; 9152; 9151; 22477; 22469; 22476; 9150; 22472; 9148; 9146; 9145; 9144; 9143; 9142; 22516; 22487; 9141; 9140; 22523; 22498; 9139; 22521; 22492; 9138; 22515; 22494; 9137; 9136; 9135; 9134; 9133; 22517; 22529; 22495; 22489; 9132; 9131; 22522; 22485; 9130; 9129; 22504; 22509; 22514; 22519; 22524; 22530; 29934; 29933; 22497; 22496; 9197; 9196; 22493; 29937; 22486; 22484; 22533; 29932; 9128; 22488; 22532; 9195; 29931; 29936; 29935]
 [22496; 29931; 29932; 29933; 29934; 29935; 29936; 29937].
Definition enc_cuts_c52 := mkCut [2087; 2086; 2085; 2084; 2083; 2082; 2081; 2080]
 [22452; 22431; 22433; 22415; 9264; 9248; 9251; 22434; 22440; 9250; 9260; 9256; 22399; 9259; 9245; 9243; 9263; 9261; 22432; 9249; 9262; 9258; 9257; 9255; 9254; 9253; 22400; 9252; 9247; 22439; 9246; 9244; 22438; 9242; 9241; 22435; 22445; 9240; 22444; 22459; 9238; 22414; 22466; 22463; 9237; 9239; 22437; 22443; 22457; 22458; 22423; 9236; 22422; 9235; 22413; 9230; 9234; 9233; 22412; 9229; 9232; 22460; 9231; 22407; 22403; 22406; 22402; 9228; 9227; 9226; 22411; 22410; 22405; 9219; 9225; 9223; 22442; 9217; 22450; 9224; 9222; 9221; 22409; 22401; 22408; 9220; 22404; 9218; 9216; 9215; 9214; 9213; 9212; 22448; 22419; 9211; 9210; 22455; 22430; 9209; 22453; 22424; 9208; 22447; 22426; 9207; 9206; 9205; 9204; 9203; 22449; 22461; 22427; 22421; 9202; 9201; 22454; 22417; 9200; 9199; 22436; 22441; 22446; 22451; 22456; 22462; 29955; 29954; 22429; 22428; 9267; 9266; 22425; 29958; 22418; 22416; 22465; 29953; 9198; 22420; 22464; 9265; 29952; 29957; 29956]
 [22428; 29952; 29953; 29954; 29955; 29956; 29957; 29958].
Definition enc_cuts_c53 := mkCut [2095; 2094; 2093; 2092; 2091; 2090; 2089; 2088]
 [22372; 9330; 9331; 22364; 9327; 22366; 9332; 9334; 9319; 22332; 22331; 9329; 9315; 9310; 22347; 9333; 9326; 22363; 22365; 9321; 9318; 9320; 22384; 9328; 9325; 9324; 9323; 9322; 9317; 22371; 9316; 22376; 22391; 9314; 22370; 9313; 9312; 9311; 22367; 22377; 9308; 22346; 22398; 22395; 9307; 9309; 22369; 22375; 22389; 22390; 22355; 9306; 22354; 9305; 22345; 9300; 9304; 9303; 22344; 9299; 9302; 22392; 9301; 22339; 22335; 22338; 22334; 9298; 9297; 9296; 22343; 22342; 22337; 9289; 9295; 9293; 22374; 9287; 22382; 9294; 9292; 9291; 22341; 22333; 22340; 9290; 22336; 9288; 9286; 9285; 9284; 9283; 9282; 22380; 22351; 9281; 9280; 22387; 22362; 9279; 22385; 22356; 9278; 22379; 22358; 9277; 9276; 9275; 9274; 9273; 22381; 22393; 22359; 22353; 9272; 9271; 22386; 22349; 9270; 9269; 22368; 22373; 22378; 22383; 22388; 22394; 29976; 29975; 22361; 22360; 9337; 9336; 22357; 29979; 22350; 22348; 22397; 29974; 9268; 22352; 22396; 9335; 29973; 29978; 29977]
 [22360; 29973; 29974; 29975; 29976; 29977; 29978; 29979].
Definition enc_cuts_c54 := mkCut [2103; 2102; 2101; 2100; 2099; 2098; 2097; 2096]
 [22316; 22295; 22297; 22279; 9404; 9388; 9391; 22298; 22304; 9390; 9400; 9396; 22263; 9399; 9385; 9383; 9403; 9401; 22296; 9389; 9402; 9398; 9397; 9395; 9394; 9393; 22264; 9392; 9387; 22303; 9386; 9384; 22302; 9382; 9381; 22299; 22309; 9380; 22308; 22323; 9378; 22278; 22330; 22327; 9377; 9379; 22301; 22307; 22321; 22322; 22287; 9376; 22286; 9375; 22277; 9370; 9374; 9373; 22276; 9369; 9372; 22324; 9371; 22271; 22267; 22270; 22266; 9368; 9367; 9366; 22275; 22274; 22269; 9359; 9365; 9363; 22306; 9357; 22314; 9364; 9362; 9361; 22273; 22265; 22272; 9360; 22268; 9358; 9356; 9355; 9354; 9353; 9352; 22312; 22283; 9351; 9350; 22319; 22294; 9349; 22317; 22288; 9348; 22311; 22290; 9347; 9346; 9345; 9344; 9343; 22313; 22325; 22291; 22285; 9342; 9341; 22318; 22281; 9340; 9339; 22300; 22305; 22310; 22315; 22320; 22326; 29885; 29884; 22293; 22292; 9407; 9406; 22289; 29888; 22282; 22280; 22329; 29883; 9338; 22284; 22328; 9405; 29882; 29887; 29886]
 [22292; 29882; 29883; 29884; 29885; 29886; 29887; 29888].
Definition enc_cuts_c55 := mkCut [2111; 2110; 2109; 2108; 2107; 2106; 2105; 2104]
 [22227; 22229; 22248; 9474; 22211; 9458; 9461; 22230; 22236; 9460; 9470; 9466; 22195; 9469; 9455; 9453; 9473; 9471; 22228; 9459; 9472; 9468; 9467; 9465; 9464; 9463; 22196; 9462; 9457; 22235; 9456; 9454; 22234; 9452; 9451; 22231; 22241; 9450; 22240; 22255; 9448; 22210; 22262; 22259; 9447; 9449; 22233; 22239; 22253; 22254; 22219; 9446; 22218; 9445; 22209; 9440; 9444; 9443; 22208; 9439; 9442; 22256; 9441; 22203; 22199; 22202; 22198; 9438; 9437; 9436; 22207; 22206; 22201; 9429; 9435; 9433; 22238; 9427; 22246; 9434; 9432; 9431; 22205; 22197; 22204; 9430; 22200; 9428; 9426; 9425; 9424; 9423; 9422; 22244; 22215; 9421; 9420; 22251; 22226; 9419; 22249; 22220; 9418; 22243; 22222; 9417; 9416; 9415; 9414; 9413; 22245; 22257; 22223; 22217; 9412; 9411; 22250; 22213; 9410; 9409; 22232; 22237; 22242; 22247; 22252; 22258; 29906; 29905; 22225; 22224; 9477; 9476; 22221; 29909; 22214; 22212; 22261; 29904; 9408; 22216; 22260; 9475; 29903; 29908; 29907]
 [22224; 29903; 29904; 29905; 29906; 29907; 29908; 29909].
Definition enc_cuts_c56 := mkCut [2119; 2118; 2117; 2116; 2115; 2114; 2113; 2112]
 [22180; 22159; 22161; 22143; 9544; 9528; 9531; 22162; 22168; 9530; 9540; 9536; 22127; 9539; 9525; 9523; 9543; 9541; 22160; 9529; 9542; 9538; 9537; 9535; 9534; 9533; 22128; 9532; 9527; 22167; 9526; 9524; 22166; 9522; 9521; 22163; 22173; 9520; 22172; 22187; 9518; 22142; 22194; 22191; 9517; 9519; 22165; 22171; 22185; 22186; 22151; 9516; 22150; 9515; 22141; 9510; 9514; 9513; 22140; 9509; 9512; 22188; 9511; 22135; 22131; 22134; 22130; 9508; 9507; 9506; 22139; 22138; 22133; 9499; 9505; 9503; 22170; 9497; 22178; 9504; 9502; 9501; 22137; 22129; 22136; 9500; 22132; 9498; 9496; 9495; 9494; 9493; 9492; 22176; 22147; 9491; 9490; 22183; 22158; 9489; 22181; 22152; 9488; 22175; 22154; 9487; 9486; 9485; 9484; 9483; 22177; 22189; 22155; 22149; 9482; 9481; 22182; 22145; 9480; 9479; 22164; 22169; 22174; 22179; 22184; 22190; 29927; 29926; 22157; 22156; 9547; 9546; 22153; 29930; 22146; 22144; 22193; 29925; 9478; 22148; 22192; 9545; 29924; 29929; 29928]
 [22156; 29924; 29925; 29926; 29927; 29928; 29929; 29930].
Definition enc_cuts_c57 := mkCut [2127; 2126; 2125; 2124; 2123; 2122; 2121; 2120]
 [22100; 9610; 9611; 22092; 9607; 22094; 9612; 9614; 9599; 22060; 22059; 9609; 9595; 9590; 22075; 9613; 9606; 22091; 22093; 9601; 9598; 9600; 22112; 9608; 9605; 9604; 9603; 9602; 9597; 22099; 9596; 22104; 22119; 9594; 22098; 9593; 9592; 9591; 22095; 22105; 9588; 22074; 22126; 22123; 9587; 9589; 22097; 22103; 22117; 22118; 22083; 9586; 22082; 9585; 22073; 9580; 9584; 9583; 22072; 9579; 9582; 22120; 9581; 22067; 22063; 22066; 22062; 9578; 9577; 9576; 22071; 22070; 22065; 9569; 9575; 9573; 22102; 9567; 22110; 9574; 9572; 9571; 22069; 22061; 22068; 9570; 22064; 9568; 9566; 9565; 9564; 9563; 9562; 22108; 22079; 9561; 9560; 22115; 22090; 9559; 22113; 22084; 9558; 22107; 22086; 9557; 9556; 9555; 9554; 9553; 22109; 22121; 22087; 22081; 9552; 9551; 22114; 22077; 9550; 9549; 22096; 22101; 22106; 22111; 22116; 22122; 29948; 29947; 22089; 22088; 9617; 9616; 22085; 29951; 22078; 22076; 22125; 29946; 9548; 22080; 22124; 9615; 29945; 29950; 29949]
 [22088; 29945; 29946; 29947; 29948; 29949; 29950; 29951].
Definition enc_cuts_c58 := mkCut [2135; 2134; 2133; 2132; 2131; 2130; 2129; 2128]
 [22044; 22023; 22025; 22007; 9684; 9668; 9671; 22026; 22032; 9670; 9680; 9676; 21991; 9679; 9665; 9663; 9683; 9681; 22024; 9669; 9682; 9678; 9677; 9675; 9674; 9673; 21992; 9672; 9667; 22031; 9666; 9664; 22030; 9662; 9661; 22027; 22037; 9660; 22036; 22051; 9658; 22006; 22058; 22055; 9657; 9659; 22029; 22035; 22049; 22050; 22015; 9656; 22014; 9655; 22005; 9650; 9654; 9653; 22004; 9649; 9652; 22052; 9651; 21999; 21995; 21998; 21994; 9648; 9647; 9646; 22003; 22002; 21997; 9639; 9645; 9643; 22034; 9637; 22042; 9644; 9642; 9641; 22001; 21993; 22000; 9640; 21996; 9638; 9636; 9635; 9634; 9633; 9632; 22040; 22011; 9631; 9630; 22047; 22022; 9629; 22045; 22016; 9628; 22039; 22018; 9627; 9626; 9625; 9624; 9623; 22041; 22053; 22019; 22013; 9622; 9621; 22046; 22009; 9620; 9619; 22028; 22033; 22038; 22043; 22048; 22054; 29969; 29968; 22021; 22020; 9687; 9686; 22017; 29972; 22010; 22008; 22057; 29967; 9618; 22012; 22056; 9685; 29966; 29971; 29970]
 [22020; 29966; 29967; 29968; 29969; 29970; 29971; 29972].
Definition enc_cuts_c59 := mkCut [2143; 2142; 2141; 2140; 2139; 2138; 2137; 2136]
 [21955; 21957; 21976; 9754; 21939; 9738; 9741; 21958; 21964; 9740; 9750; 9746; 21923; 9749; 9735; 9733; 9753; 9751; 21956; 9739; 9752; 9748; 9747; 9745; 9744; 9743; 21924; 9742; 9737; 21963; 9736; 9734; 21962; 9732; 9731; 21959; 21969; 9730; 21968; 21983; 9728; 21938; 21990; 21987; 9727; 9729; 21961; 21967; 21981; 21982; 21947; 9726; 21946; 9725; 21937; 9720; 9724; 9723; 21936; 9719; 9722; 21984; 9721; 21931; 21927; 21930; 21926; 9718; 9717; 9716; 21935; 21934; 21929; 9709; 9715; 9713; 21966; 9707; 21974; 9714; 9712; 9711; 21933; 21925; 21932; 9710; 21928; 9708; 9706; 9705; 9704; 9703; 9702; 21972; 21943; 9701; 9700; 21979; 21954; 9699; 21977; 21948; 9698; 21971; 21950; 9697; 9696; 9695; 9694; 9693; 21973; 21985; 21951; 21945; 9692; 9691; 21978; 21941; 9690; 9689; 21960; 21965; 21970; 21975; 21980; 21986; 29878; 29877; 21953; 21952; 9757; 9756; 21949; 29881; 21942; 21940; 21989; 29876; 9688; 21944; 21988; 9755; 29875; 29880; 29879]
 [21952; 29875; 29876; 29877; 29878; 29879; 29880; 29881].
Definition enc_cuts_c60 := mkCut [2151; 2150; 2149; 2148; 2147; 2146; 2145; 2144]
 [21908; 21887; 21889; 21871; 9824; 9808; 9811; 21890; 21896; 9810; 9820; 9816; 21855; 9819; 9805; 9803; 9823; 9821; 21888; 9809; 9822; 9818; 9817; 9815; 9814; 9813; 21856; 9812; 9807; 21895; 9806; 9804; 21894; 9802; 9801; 21891; 21901; 9800; 21900; 21915; 9798; 21870; 21922; 21919; 9797; 9799; 21893; 21899; 21913; 21914; 21879; 9796; 21878; 9795; 21869; 9790; 9794; 9793; 21868; 9789; 9792; 21916; 9791; 21863; 21859; 21862; 21858; 9788; 9787; 9786; 21867; 21866; 21861; 9779; 9785; 9783; 21898; 9777; 21906; 9784; 9782; 9781; 21865; 21857; 21864; 9780; 21860; 9778; 9776; 9775; 9774; 9773; 9772; 21904; 21875; 9771; 9770; 21911; 21886; 9769; 21909; 21880; 9768; 21903; 21882; 9767; 9766; 9765; 9764; 9763; 21905; 21917; 21883; 21877; 9762; 9761; 21910; 21873; 9760; 9759; 21892; 21897; 21902; 21907; 21912; 21918; 29899; 29898; 21885; 21884; 9827; 9826; 21881; 29902; 21874; 21872; 21921; 29897; 9758; 21876; 21920; 9825; 29896; 29901; 29900]
 [21884; 29896; 29897; 29898; 29899; 29900; 29901; 29902].
Definition enc_cuts_c61 := mkCut [2159; 2158; 2157; 2156; 2155; 2154; 2153; 2152]
 [21819; 21821; 21840; 9894; 21803; 9878; 9881; 21822; 21828; 9880; 9890; 9886; 21787; 9889; 9875; 9873; 9893; 9891; 21820; 9879; 9892; 9888; 9887; 9885; 9884; 9883; 21788; 9882; 9877; 21827; 9876; 9874; 21826; 9872; 9871; 21823; 21833; 9870; 21832; 21847; 9868; 21802; 21854; 21851; 9867; 9869; 21825; 21831; 21845; 21846; 21811; 9866; 21810; 9865; 21801; 9860; 9864; 9863; 21800; 9859; 9862; 21848; 9861; 21795; 21791; 21794; 21790; 9858; 9857; 9856; 21799; 21798; 21793; 9849; 9855; 9853; 21830; 9847; 21838; 9854; 9852; 9851; 21797; 21789; 21796; 9850; 21792; 9848; 9846; 9845; 9844; 9843; 9842; 21836; 21807; 9841; 9840; 21843; 21818; 9839; 21841; 21812; 9838; 21835; 21814; 9837; 9836; 9835; 9834; 9833; 21837; 21849; 21815; 21809; 9832; 9831; 21842; 21805; 9830; 9829; 21824; 21829; 21834; 21839; 21844; 21850; 29920; 29919; 21817; 21816; 9897; 9896; 21813; 29923; 21806; 21804; 21853; 29918; 9828; 21808; 21852; 9895; 29917; 29922; 29921]
 [21816; 29917; 29918; 29919; 29920; 29921; 29922; 29923].
Definition enc_cuts_c62 := mkCut [2167; 2166; 2165; 2164; 2163; 2162; 2161; 2160]
 [21735; 9964; 21754; 21719; 9961; 21752; 9949; 9962; 21720; 9940; 21760; 9960; 9957; 9959; 9945; 9963; 9956; 21751; 21753; 9951; 9948; 9950; 21772; 9958; 9955; 9954; 9953; 9952; 9947; 21759; 9946; 21764; 21779; 9944; 21758; 9943; 9942; 9941; 21755; 21765; 9938; 21734; 21786; 21783; 9937; 9939; 21757; 21763; 21777; 21778; 21743; 9936; 21742; 9935; 21733; 9930; 9934; 9933; 21732; 9929; 9932; 21780; 9931; 21727; 21723; 21726; 21722; 9928; 9927; 9926; 21731; 21730; 21725; 9919; 9925; 9923; 21762; 9917; 21770; 9924; 9922; 9921; 21729; 21721; 21728; 9920; 21724; 9918; 9916; 9915; 9914; 9913; 9912; 21768; 21739; 9911; 9910; 21775; 21750; 9909; 21773; 21744; 9908; 21767; 21746; 9907; 9906; 9905; 9904; 9903; 21769; 21781; 21747; 21741; 9902; 9901; 21774; 21737; 9900; 9899; 21756; 21761; 21766; 21771; 21776; 21782; 29941; 29940; 21749; 21748; 9967; 9966; 21745; 29944; 21738; 21736; 21785; 29939; 9898; 21740; 21784; 9965; 29938; 29943; 29942]
 [21748; 29938; 29939; 29940; 29941; 29942; 29943; 29944].
Definition enc_cuts_c63 := mkCut [2175; 2174; 2173; 2172; 2171; 2170; 2169; 2168]
 [21692; 10030; 10031; 21684; 10027; 21686; 10032; 10034; 10019; 21652; 21651; 10029; 10015; 10010; 21667; 10033; 10026; 21683; 21685; 10021; 10018; 10020; 21704; 10028; 10025; 10024; 10023; 10022; 10017; 21691; 10016; 21696; 21711; 10014; 21690; 10013; 10012; 10011; 21687; 21697; 10008; 21666; 21718; 21715; 10007; 10009; 21689; 21695; 21709; 21710; 21675; 10006; 21674; 10005; 21665; 10000; 10004; 10003; 21664; 9999; 10002; 21712; 10001; 21659; 21655; 21658; 21654; 9998; 9997; 9996; 21663; 21662; 21657; 9989; 9995; 9993; 21694; 9987; 21702; 9994; 9992; 9991; 21661; 21653; 21660; 9990; 21656; 9988; 9986; 9985; 9984; 9983; 9982; 21700; 21671; 9981; 9980; 21707; 21682; 9979; 21705; 21676; 9978; 21699; 21678; 9977; 9976; 9975; 9974; 9973; 21701; 21713; 21679; 21673; 9972; 9971; 21706; 21669; 9970; 9969; 21688; 21693; 21698; 21703; 21708; 21714; 29962; 29961; 21681; 21680; 10037; 10036; 21677; 29965; 21670; 21668; 21717; 29960; 9968; 21672; 21716; 10035; 29959; 29964; 29963]
 [21680; 29959; 29960; 29961; 29962; 29963; 29964; 29965].
Definition enc_cuts_c64 := mkCut [1927; 1926; 1925; 1924; 1923; 1922; 1921; 1920]
 [23812; 23775; 23791; 23793; 7864; 7848; 7851; 23800; 23794; 23759; 7860; 7859; 7845; 7863; 23792; 7857; 7862; 7858; 7854; 7847; 23799; 7841; 23795; 23805; 7853; 7855; 7846; 23760; 7849; 7852; 7844; 23798; 7840; 23774; 23826; 23804; 23819; 23823; 7861; 7839; 23803; 23818; 23782; 7835; 7838; 7856; 7843; 7837; 7834; 23772; 7829; 7850; 7842; 23797; 23783; 23817; 23773; 7830; 7828; 23771; 23770; 23765; 7836; 7833; 7832; 23820; 23767; 23763; 23766; 7819; 7809; 23762; 7831; 7810; 7801; 7800; 7827; 7804; 7813; 23814; 23815; 23777; 7826; 7825; 7823; 23802; 23810; 7824; 7805; 7817; 7815; 23813; 7806; 7814; 7822; 23769; 23761; 7816; 7808; 23786; 7821; 7811; 23807; 23764; 7818; 7803; 7802; 7799; 23796; 23801; 23806; 23785; 23816; 23789; 23768; 7820; 7807; 7798; 23780; 23809; 23781; 23821; 23787; 7867; 29740; 23824; 23811; 7866; 23822; 29745; 7812; 23808; 23784; 29746; 23779; 23778; 23790; 23788; 23776; 23825; 29741; 29743; 7865; 29744; 29742]
 [23788; 29740; 29741; 29742; 29743; 29744; 29745; 29746].
Definition enc_cuts_c65 := mkCut [1935; 1934; 1933; 1932; 1931; 1930; 1929; 1928]
 [23732; 7930; 23724; 7931; 7927; 7932; 7934; 7919; 7910; 23726; 23691; 7929; 23692; 7915; 23707; 23744; 23723; 7922; 7909; 7924; 23725; 7920; 23735; 23750; 7912; 23729; 23749; 7921; 7911; 23727; 23706; 23758; 7918; 7923; 7925; 7916; 23736; 23714; 7905; 23751; 7933; 7914; 23730; 23715; 7906; 23755; 7928; 7917; 23731; 23737; 7908; 7926; 7913; 7907; 23705; 7904; 23704; 7899; 7903; 7902; 23699; 23752; 7901; 23695; 23698; 23694; 7880; 7900; 7898; 7897; 7883; 7874; 7896; 23747; 23703; 23702; 23697; 7889; 7870; 7895; 23734; 7887; 23742; 7894; 7875; 7885; 7893; 7876; 7884; 7879; 23745; 7892; 7891; 7881; 7872; 23696; 7888; 7882; 23716; 7873; 23740; 23711; 23722; 23701; 23693; 23700; 7886; 7869; 7878; 23718; 23739; 23728; 23733; 23738; 23743; 23754; 29651; 23748; 29652; 23710; 7890; 7877; 23741; 23753; 23719; 7868; 23712; 7937; 23721; 23720; 23717; 29655; 23713; 23756; 7871; 23746; 23709; 23708; 7935; 29653; 23757; 29650; 7936; 29649; 29654]
 [23720; 29649; 29650; 29651; 29652; 29653; 29654; 29655].
Definition enc_cuts_c66 := mkCut [1943; 1942; 1941; 1940; 1939; 1938; 1937; 1936]
 [23676; 23639; 23655; 23657; 8004; 7988; 23664; 8000; 23658; 23623; 7999; 7985; 8002; 7994; 8001; 23656; 7989; 23624; 7997; 7992; 7980; 7979; 23667; 23682; 7993; 7991; 7981; 23638; 23690; 7998; 7987; 23663; 8003; 7984; 23662; 23687; 7996; 7983; 7977; 7995; 7986; 23668; 23646; 7975; 23683; 7990; 7982; 23661; 23647; 23681; 23637; 7970; 23659; 23669; 7976; 7978; 7974; 7973; 23636; 7969; 7972; 23684; 23631; 23627; 23630; 23626; 7968; 23635; 7967; 7944; 7953; 23634; 23629; 7959; 7940; 7949; 7971; 7950; 23679; 7941; 23678; 23641; 7966; 7965; 7963; 23666; 23674; 7962; 7961; 23633; 7964; 7945; 7957; 7946; 7942; 7955; 7954; 23625; 23632; 7960; 7938; 23644; 23677; 23628; 7958; 7943; 7956; 7939; 7952; 23672; 23643; 23654; 23648; 7951; 7948; 23650; 23671; 7947; 23673; 23645; 23688; 8005; 29674; 23685; 23651; 23660; 23665; 23670; 23680; 23653; 23649; 23652; 8007; 29670; 29676; 23675; 23686; 29673; 29672; 8006; 29675; 23642; 23640; 23689; 29671]
 [23652; 29670; 29671; 29672; 29673; 29674; 29675; 29676].
Definition enc_cuts_c67 := mkCut [1951; 1950; 1949; 1948; 1947; 1946; 1945; 1944]
 [23588; 23596; 8070; 8067; 8071; 23590; 23556; 8072; 8074; 8059; 8050; 23555; 8069; 8055; 23571; 8066; 8053; 8073; 23587; 8062; 8049; 8064; 8063; 23599; 23614; 23589; 8061; 8058; 8054; 8060; 23594; 23608; 8068; 8065; 8056; 8057; 23595; 23600; 23615; 23578; 8045; 8052; 23593; 23579; 23613; 23569; 8040; 8051; 23591; 8046; 23601; 8048; 23570; 23622; 23619; 8047; 8044; 8043; 8042; 23563; 23616; 8041; 8011; 23568; 8039; 8038; 8037; 8014; 8023; 23567; 8036; 8035; 8033; 8032; 23560; 8028; 8013; 8022; 8031; 8012; 23598; 8027; 8016; 8025; 23606; 8034; 8015; 8024; 23604; 23575; 23610; 23573; 23566; 23561; 23565; 23557; 23564; 8030; 8017; 8008; 23605; 23559; 23562; 8029; 8010; 23576; 8019; 23609; 23577; 23620; 8075; 29695; 23580; 23558; 8026; 8018; 8009; 23592; 23612; 23597; 23602; 23607; 23585; 23582; 8076; 29696; 23574; 23572; 23621; 8021; 23603; 23617; 23618; 29694; 29692; 23581; 29697; 8020; 23583; 23611; 29693; 23586; 23584; 8077; 29691]
 [23584; 29691; 29692; 29693; 29694; 29695; 29696; 29697].
Definition enc_cuts_c68 := mkCut [1959; 1958; 1957; 1956; 1955; 1954; 1953; 1952]
 [23540; 23503; 23519; 23521; 8144; 8128; 23528; 8130; 8131; 8140; 8136; 8123; 23522; 23487; 8139; 8125; 8143; 8124; 8142; 8138; 8121; 8134; 8141; 23523; 8133; 8127; 23527; 23533; 23520; 8137; 23526; 23488; 8122; 8135; 8132; 8119; 23525; 23511; 8129; 8120; 23531; 23502; 23545; 23501; 23554; 23551; 8117; 8116; 8126; 23546; 8110; 23532; 23547; 8118; 8114; 8113; 23500; 8109; 23510; 8115; 8112; 23548; 23495; 23491; 23490; 23494; 8111; 8081; 8108; 8107; 8084; 23499; 8106; 8105; 8103; 23530; 23538; 8104; 8085; 8102; 8101; 8082; 8093; 23542; 23505; 8091; 8090; 23543; 23497; 23492; 8098; 8083; 8092; 23489; 8096; 8088; 8079; 23496; 23535; 8097; 8086; 8095; 23536; 23507; 23518; 23498; 23493; 8099; 8080; 8089; 23512; 23541; 23514; 23524; 23529; 23534; 23513; 8100; 8087; 23537; 23509; 23549; 23515; 23544; 8147; 23517; 29718; 23516; 8078; 23508; 23552; 8145; 29712; 23506; 23504; 23553; 29713; 8094; 23539; 23550; 8146; 29717; 29715; 29714; 29716]
 [23516; 29712; 29713; 29714; 29715; 29716; 29717; 29718].
Definition enc_cuts_c69 := mkCut [1967; 1966; 1965; 1964; 1963; 1962; 1961; 1960]
 [23451; 8214; 23472; 23453; 23435; 8198; 23460; 8200; 23454; 23419; 8209; 8195; 8210; 8206; 8193; 8213; 8211; 8212; 8204; 8194; 8208; 8197; 23459; 8203; 23452; 23458; 8199; 8190; 23420; 8207; 8205; 8196; 23464; 23479; 8192; 8202; 8189; 23457; 23463; 23478; 23443; 23477; 23433; 8180; 23442; 8185; 8201; 8191; 23434; 23455; 23465; 8186; 8188; 23486; 23483; 8187; 8184; 8183; 8182; 23432; 23480; 8181; 8160; 8151; 8179; 8178; 23430; 23425; 23431; 8176; 8175; 8173; 23462; 8167; 8156; 8165; 23470; 8174; 8155; 8164; 8172; 8171; 8161; 8152; 23429; 23421; 23428; 23424; 8168; 8153; 8162; 23468; 23439; 8170; 8157; 8148; 23469; 23427; 23423; 23422; 23426; 8169; 8159; 23444; 8150; 23473; 23440; 8166; 8158; 23467; 23481; 23447; 8149; 23456; 23461; 23438; 23446; 23476; 23449; 23466; 23471; 23445; 29739; 8216; 23482; 29736; 8217; 29733; 29738; 23441; 23484; 8177; 8154; 8163; 23474; 23475; 29735; 23450; 23437; 23436; 8215; 29737; 23485; 29734; 23448]
 [23448; 29733; 29734; 29735; 29736; 29737; 29738; 29739].
Definition enc_cuts_c70 := mkCut [1975; 1974; 1973; 1972; 1971; 1970; 1969; 1968]
 [23404; 23367; 23383; 23385; 8284; 8268; 8271; 23386; 23351; 8279; 8265; 23392; 8270; 8280; 8283; 23384; 8269; 8260; 8277; 8262; 23352; 8272; 8264; 8282; 8278; 8261; 23387; 23390; 8274; 8267; 8273; 23391; 23397; 8281; 8259; 23395; 23410; 23389; 23409; 23375; 8256; 8276; 8263; 23365; 8250; 8275; 8266; 23396; 23411; 8258; 23374; 8255; 23366; 23418; 23415; 8257; 8254; 23364; 8249; 8253; 8248; 8246; 8245; 23394; 8247; 8233; 8224; 8243; 23362; 23402; 8237; 8235; 8226; 8252; 23359; 23355; 23412; 23354; 8251; 8230; 8221; 8242; 23361; 23406; 23353; 23360; 8236; 8228; 8219; 23407; 8241; 8222; 8231; 23399; 23369; 23356; 8238; 8223; 8232; 23400; 23371; 23382; 23363; 8244; 8225; 8234; 23357; 8240; 8227; 8218; 23401; 23413; 23379; 23358; 8239; 8220; 23372; 8229; 23376; 23388; 23405; 23373; 23378; 23416; 23408; 23381; 23380; 8287; 29642; 8285; 29646; 23393; 23398; 23377; 29648; 23370; 23368; 23417; 29643; 23403; 23414; 29644; 29645; 8286; 29647]
 [23380; 29642; 29643; 29644; 29645; 29646; 29647; 29648].
Definition enc_cuts_c71 := mkCut [1983; 1982; 1981; 1980; 1979; 1978; 1977; 1976]
 [23324; 8350; 8354; 8352; 23318; 23283; 8349; 8335; 23299; 8353; 23336; 8348; 8351; 8346; 8333; 23315; 8344; 8343; 23316; 8339; 8347; 23284; 8342; 8329; 23327; 8330; 23342; 8345; 8336; 23328; 23306; 8325; 23343; 23317; 8341; 8340; 8338; 8331; 23319; 23298; 23350; 8334; 8332; 23321; 23341; 23297; 8320; 23322; 23307; 23347; 8326; 8327; 8337; 23323; 23329; 8328; 8324; 8323; 23296; 8319; 8318; 23295; 8317; 8303; 8316; 8315; 23326; 23334; 8314; 8307; 8313; 8295; 8294; 8305; 23294; 23289; 8322; 23344; 8321; 8300; 8312; 23293; 23285; 23291; 23339; 23287; 23290; 8309; 8299; 23337; 8291; 23338; 23301; 23288; 8308; 8293; 8302; 23308; 23332; 23286; 8306; 8298; 23310; 23292; 8310; 8288; 8297; 23333; 23305; 23303; 8311; 8301; 8292; 23331; 23345; 23311; 23314; 8304; 8289; 8296; 8290; 23320; 23325; 23330; 23309; 29669; 23304; 23348; 8355; 29667; 23302; 23300; 23349; 23335; 8356; 29668; 23340; 23313; 23346; 29665; 29666; 8357; 29663; 23312; 29664]
 [23312; 29663; 29664; 29665; 29666; 29667; 29668; 29669].
Definition enc_cuts_c72 := mkCut [1991; 1990; 1989; 1988; 1987; 1986; 1985; 1984]
 [23268; 23247; 23249; 23231; 8424; 8408; 8411; 23250; 23256; 8410; 8420; 8416; 23215; 8419; 8405; 8403; 8423; 8421; 23248; 8409; 8422; 8418; 8417; 8415; 8414; 8413; 23216; 8412; 8407; 23255; 8406; 8404; 23254; 8402; 8401; 23251; 23261; 8400; 23260; 23275; 8398; 23230; 23282; 23279; 8397; 8399; 23253; 23259; 23273; 23274; 23239; 8396; 23238; 8395; 23229; 8390; 8394; 8393; 23228; 8389; 8392; 23276; 8391; 23223; 23219; 23222; 23218; 8388; 8387; 8386; 23227; 23226; 23221; 8379; 8385; 8383; 23258; 8377; 23266; 8384; 8382; 8381; 23225; 23217; 23224; 8380; 23220; 8378; 8376; 8375; 8374; 8373; 8372; 23264; 23235; 8371; 8370; 23271; 23246; 8369; 23269; 23240; 8368; 23263; 23242; 8367; 8366; 8365; 8364; 8363; 23265; 23277; 23243; 23237; 8362; 8361; 23270; 23233; 8360; 8359; 23252; 23257; 23262; 23267; 23272; 23278; 29687; 29686; 23245; 23244; 8427; 8426; 23241; 29690; 23234; 23232; 23281; 29685; 8358; 23236; 23280; 8425; 29684; 29689; 29688]
 [23244; 29684; 29685; 29686; 29687; 29688; 29689; 29690].
Definition enc_cuts_c73 := mkCut [1999; 1998; 1997; 1996; 1995; 1994; 1993; 1992]
 [23188; 8490; 8491; 23180; 8487; 23182; 8492; 8494; 8479; 23148; 23147; 8489; 8475; 8470; 23163; 8493; 8486; 23179; 23181; 8481; 8478; 8480; 23200; 8488; 8485; 8484; 8483; 8482; 8477; 23187; 8476; 23192; 23207; 8474; 23186; 8473; 8472; 8471; 23183; 23193; 8468; 23162; 23214; 23211; 8467; 8469; 23185; 23191; 23205; 23206; 23171; 8466; 23170; 8465; 23161; 8460; 8464; 8463; 23160; 8459; 8462; 23208; 8461; 23155; 23151; 23154; 23150; 8458; 8457; 8456; 23159; 23158; 23153; 8449; 8455; 8453; 23190; 8447; 23198; 8454; 8452; 8451; 23157; 23149; 23156; 8450; 23152; 8448; 8446; 8445; 8444; 8443; 8442; 23196; 23167; 8441; 8440; 23203; 23178; 8439; 23201; 23172; 8438; 23195; 23174; 8437; 8436; 8435; 8434; 8433; 23197; 23209; 23175; 23169; 8432; 8431; 23202; 23165; 8430; 8429; 23184; 23189; 23194; 23199; 23204; 23210; 29708; 29707; 23177; 23176; 8497; 8496; 23173; 29711; 23166; 23164; 23213; 29706; 8428; 23168; 23212; 8495; 29705; 29710; 29709]
 [23176; 29705; 29706; 29707; 29708; 29709; 29710; 29711].
Definition enc_cuts_c74 := mkCut [2007; 2006; 2005; 2004; 2003; 2002; 2001; 2000]
 [23132; 23111; 23113; 23095; 8564; 8548; 8551; 23114; 23120; 8550; 8560; 8556; 23079; 8559; 8545; 8543; 8563; 8561; 23112; 8549; 8562; 8558; 8557; 8555; 8554; 8553; 23080; 8552; 8547; 23119; 8546; 8544; 23118; 8542; 8541; 23115; 23125; 8540; 23124; 23139; 8538; 23094; 23146; 23143; 8537; 8539; 23117; 23123; 23137; 23138; 23103; 8536; 23102; 8535; 23093; 8530; 8534; 8533; 23092; 8529; 8532; 23140; 8531; 23087; 23083; 23086; 23082; 8528; 8527; 8526; 23091; 23090; 23085; 8519; 8525; 8523; 23122; 8517; 23130; 8524; 8522; 8521; 23089; 23081; 23088; 8520; 23084; 8518; 8516; 8515; 8514; 8513; 8512; 23128; 23099; 8511; 8510; 23135; 23110; 8509; 23133; 23104; 8508; 23127; 23106; 8507; 8506; 8505; 8504; 8503; 23129; 23141; 23107; 23101; 8502; 8501; 23134; 23097; 8500; 8499; 23116; 23121; 23126; 23131; 23136; 23142; 29729; 29728; 23109; 23108; 8567; 8566; 23105; 29732; 23098; 23096; 23145; 29727; 8498; 23100; 23144; 8565; 29726; 29731; 29730]
 [23108; 29726; 29727; 29728; 29729; 29730; 29731; 29732].
Definition enc_cuts_c75 := mkCut [2015; 2014; 2013; 2012; 2011; 2010; 2009; 2008]
 [23052; 8630; 8631; 23044; 8627; 23046; 8632; 8634; 8619; 23012; 23011; 8629; 8615; 8610; 23027; 8633; 8626; 23043; 23045; 8621; 8618; 8620; 23064; 8628; 8625; 8624; 8623; 8622; 8617; 23051; 8616; 23056; 23071; 8614; 23050; 8613; 8612; 8611; 23047; 23057; 8608; 23026; 23078; 23075; 8607; 8609; 23049; 23055; 23069; 23070; 23035; 8606; 23034; 8605; 23025; 8600; 8604; 8603; 23024; 8599; 8602; 23072; 8601; 23019; 23015; 23018; 23014; 8598; 8597; 8596; 23023; 23022; 23017; 8589; 8595; 8593; 23054; 8587; 23062; 8594; 8592; 8591; 23021; 23013; 23020; 8590; 23016; 8588; 8586; 8585; 8584; 8583; 8582; 23060; 23031; 8581; 8580; 23067; 23042; 8579; 23065; 23036; 8578; 23059; 23038; 8577; 8576; 8575; 8574; 8573; 23061; 23073; 23039; 23033; 8572; 8571; 23066; 23029; 8570; 8569; 23048; 23053; 23058; 23063; 23068; 23074; 29638; 29637; 23041; 23040; 8637; 8636; 23037; 29641; 23030; 23028; 23077; 29636; 8568; 23032; 23076; 8635; 29635; 29640; 29639]
 [23040; 29635; 29636; 29637; 29638; 29639; 29640; 29641].
Definition enc_cuts_c76 := mkCut [2023; 2022; 2021; 2020; 2019; 2018; 2017; 2016]
 [22996; 22975; 22977; 22959; 8704; 8688; 8691; 22978; 22984; 8690; 8700; 8696; 22943; 8699; 8685; 8683; 8703; 8701; 22976; 8689; 8702; 8698; 8697; 8695; 8694; 8693; 22944; 8692; 8687; 22983; 8686; 8684; 22982; 8682; 8681; 22979; 22989; 8680; 22988; 23003; 8678; 22958; 23010; 23007; 8677; 8679; 22981; 22987; 23001; 23002; 22967; 8676; 22966; 8675; 22957; 8670; 8674; 8673; 22956; 8669; 8672; 23004; 8671; 22951; 22947; 22950; 22946; 8668; 8667; 8666; 22955; 22954; 22949; 8659; 8665; 8663; 22986; 8657; 22994; 8664; 8662; 8661; 22953; 22945; 22952; 8660; 22948; 8658; 8656; 8655; 8654; 8653; 8652; 22992; 22963; 8651; 8650; 22999; 22974; 8649; 22997; 22968; 8648; 22991; 22970; 8647; 8646; 8645; 8644; 8643; 22993; 23005; 22971; 22965; 8642; 8641; 22998; 22961; 8640; 8639; 22980; 22985; 22990; 22995; 23000; 23006; 29659; 29658; 22973; 22972; 8707; 8706; 22969; 29662; 22962; 22960; 23009; 29657; 8638; 22964; 23008; 8705; 29656; 29661; 29660]
 [22972; 29656; 29657; 29658; 29659; 29660; 29661; 29662].
Definition enc_cuts_c77 := mkCut [2031; 2030; 2029; 2028; 2027; 2026; 2025; 2024]
 [22916; 8770; 8771; 22908; 8767; 22910; 8772; 8774; 8759; 22876; 22875; 8769; 8755; 8750; 22891; 8773; 8766; 22907; 22909; 8761; 8758; 8760; 22928; 8768; 8765; 8764; 8763; 8762; 8757; 22915; 8756; 22920; 22935; 8754; 22914; 8753; 8752; 8751; 22911; 22921; 8748; 22890; 22942; 22939; 8747; 8749; 22913; 22919; 22933; 22934; 22899; 8746; 22898; 8745; 22889; 8740; 8744; 8743; 22888; 8739; 8742; 22936; 8741; 22883; 22879; 22882; 22878; 8738; 8737; 8736; 22887; 22886; 22881; 8729; 8735; 8733; 22918; 8727; 22926; 8734; 8732; 8731; 22885; 22877; 22884; 8730; 22880; 8728; 8726; 8725; 8724; 8723; 8722; 22924; 22895; 8721; 8720; 22931; 22906; 8719; 22929; 22900; 8718; 22923; 22902; 8717; 8716; 8715; 8714; 8713; 22925; 22937; 22903; 22897; 8712; 8711; 22930; 22893; 8710; 8709; 22912; 22917; 22922; 22927; 22932; 22938; 29680; 29679; 22905; 22904; 8777; 8776; 22901; 29683; 22894; 22892; 22941; 29678; 8708; 22896; 22940; 8775; 29677; 29682; 29681]
 [22904; 29677; 29678; 29679; 29680; 29681; 29682; 29683].
Definition enc_cuts_c78 := mkCut [2039; 2038; 2037; 2036; 2035; 2034; 2033; 2032]
 [22823; 8844; 22842; 22807; 8841; 22840; 8829; 8842; 22808; 8820; 22848; 8840; 8837; 8839; 8825; 8843; 8836; 22839; 22841; 8831; 8828; 8830; 22860; 8838; 8835; 8834; 8833; 8832; 8827; 22847; 8826; 22852; 22867; 8824; 22846; 8823; 8822; 8821; 22843; 22853; 8818; 22822; 22874; 22871; 8817; 8819; 22845; 22851; 22865; 22866; 22831; 8816; 22830; 8815; 22821; 8810; 8814; 8813; 22820; 8809; 8812; 22868; 8811; 22815; 22811; 22814; 22810; 8808; 8807; 8806; 22819; 22818; 22813; 8799; 8805; 8803; 22850; 8797; 22858; 8804; 8802; 8801; 22817; 22809; 22816; 8800; 22812; 8798; 8796; 8795; 8794; 8793; 8792; 22856; 22827; 8791; 8790; 22863; 22838; 8789; 22861; 22832; 8788; 22855; 22834; 8787; 8786; 8785; 8784; 8783; 22857; 22869; 22835; 22829; 8782; 8781; 22862; 22825; 8780; 8779; 22844; 22849; 22854; 22859; 22864; 22870; 29701; 29700; 22837; 22836; 8847; 8846; 22833; 29704; 22826; 22824; 22873; 29699; 8778; 22828; 22872; 8845; 29698; 29703; 29702]
 [22836; 29698; 29699; 29700; 29701; 29702; 29703; 29704].
Definition enc_cuts_c79 := mkCut [2047; 2046; 2045; 2044; 2043; 2042; 2041; 2040]
 [22771; 22773; 22792; 8914; 22755; 8898; 8901; 22774; 22780; 8900; 8910; 8906; 22739; 8909; 8895; 8893; 8913; 8911; 22772; 8899; 8912; 8908; 8907; 8905; 8904; 8903; 22740; 8902; 8897; 22779; 8896; 8894; 22778; 8892; 8891; 22775; 22785; 8890; 22784; 22799; 8888; 22754; 22806; 22803; 8887; 8889; 22777; 22783; 22797; 22798; 22763; 8886; 22762; 8885; 22753; 8880; 8884; 8883; 22752; 8879; 8882; 22800; 8881; 22747; 22743; 22746; 22742; 8878; 8877; 8876; 22751; 22750; 22745; 8869; 8875; 8873; 22782; 8867; 22790; 8874; 8872; 8871; 22749; 22741; 22748; 8870; 22744; 8868; 8866; 8865; 8864; 8863; 8862; 22788; 22759; 8861; 8860; 22795; 22770; 8859; 22793; 22764; 8858; 22787; 22766; 8857; 8856; 8855; 8854; 8853; 22789; 22801; 22767; 22761; 8852; 8851; 22794; 22757; 8850; 8849; 22776; 22781; 22786; 22791; 22796; 22802; 29722; 29721; 22769; 22768; 8917; 8916; 22765; 29725; 22758; 22756; 22805; 29720; 8848; 22760; 22804; 8915; 29719; 29724; 29723]
 [22768; 29719; 29720; 29721; 29722; 29723; 29724; 29725].
Definition enc_cuts_c80 := mkCut [1799; 1798; 1797; 1796; 1795; 1794; 1793; 1792]
 [6742; 24882; 24847; 6744; 6741; 24888; 24879; 24881; 6731; 6730; 6728; 6743; 6724; 24900; 6738; 6734; 6733; 6721; 24883; 6740; 6736; 6723; 24880; 6729; 6720; 6737; 6735; 6726; 24892; 24907; 24886; 6722; 24862; 24863; 24914; 24911; 6717; 24848; 6732; 6719; 24885; 24905; 24861; 24871; 6716; 6710; 6739; 6725; 24891; 24906; 24870; 6715; 6727; 24887; 24893; 6718; 6714; 6713; 6712; 24908; 6711; 6690; 6681; 24860; 6709; 6708; 24859; 6707; 6684; 6693; 24902; 24865; 6706; 24903; 24858; 24853; 24855; 24851; 24850; 24854; 6699; 6689; 6680; 6705; 24890; 24898; 6697; 6695; 6686; 24901; 6703; 6702; 6701; 6682; 6691; 24857; 24849; 6696; 6679; 24884; 24904; 6688; 24874; 24895; 24856; 6704; 6694; 6685; 24889; 24894; 24873; 24899; 24910; 29502; 6746; 29505; 6700; 6678; 6687; 24868; 24852; 6698; 6692; 24896; 29503; 24867; 6683; 24897; 24869; 24912; 24878; 24877; 24876; 24909; 24875; 6747; 29500; 6745; 29504; 24872; 29506; 24866; 24864; 24913; 29501]
 [24876; 29500; 29501; 29502; 29503; 29504; 29505; 29506].
Definition enc_cuts_c81 := mkCut [1807; 1806; 1805; 1804; 1803; 1802; 1801; 1800]
 [6811; 24812; 6812; 24820; 6810; 6807; 6814; 24795; 6799; 24811; 24813; 6798; 6800; 6792; 6806; 6813; 6804; 6803; 24814; 24779; 6809; 24780; 6802; 6795; 24832; 6805; 6808; 6797; 24819; 6796; 6801; 6794; 24818; 6793; 6791; 24815; 24825; 6790; 24794; 24846; 24843; 24824; 24839; 6788; 6787; 6784; 6789; 24823; 24802; 6785; 24838; 24792; 24817; 24837; 24793; 6780; 24803; 6786; 6783; 6782; 24840; 6781; 24787; 24783; 24786; 6779; 6778; 24790; 6777; 6763; 6754; 24785; 6776; 6769; 6759; 24782; 24791; 6775; 24822; 6773; 24830; 6767; 6765; 24833; 6756; 6774; 6764; 6755; 6772; 6771; 24789; 24784; 24781; 24788; 6766; 6749; 6758; 24806; 6768; 6770; 6748; 6757; 6762; 24804; 24828; 24799; 6761; 24827; 6760; 24835; 24810; 6753; 24829; 24801; 24841; 24807; 6752; 6751; 24834; 24797; 6750; 24800; 24844; 6815; 24816; 24836; 24809; 24808; 24821; 24826; 24805; 24831; 24842; 29411; 6816; 29412; 6817; 29409; 24798; 29415; 29414; 29413; 24796; 24845; 29410]
 [24808; 29409; 29410; 29411; 29412; 29413; 29414; 29415].
Definition enc_cuts_c82 := mkCut [1815; 1814; 1813; 1812; 1811; 1810; 1809; 1808]
 [6882; 6883; 24746; 24743; 6874; 24744; 24712; 24727; 6881; 24745; 6871; 6861; 24747; 6868; 6864; 24750; 6872; 24711; 24764; 6878; 6867; 24751; 24757; 6859; 6884; 6869; 6860; 6879; 6865; 24755; 24770; 24752; 6877; 6880; 6876; 6863; 6873; 6875; 6866; 24756; 24734; 6855; 6870; 6862; 24749; 24735; 6856; 24769; 24725; 6850; 24771; 6858; 24726; 24778; 24775; 6857; 6854; 6853; 6852; 24772; 6851; 6821; 24719; 24715; 24718; 24714; 6830; 24724; 6849; 6848; 24723; 6847; 6824; 6833; 24766; 24729; 24722; 24717; 6839; 6829; 6846; 6845; 24754; 6843; 6842; 6841; 6822; 24716; 24721; 6838; 6823; 6832; 6831; 24736; 6837; 6835; 24765; 24760; 24731; 24762; 24713; 24720; 6844; 6825; 6840; 6818; 6834; 6836; 6819; 24767; 24742; 6826; 6820; 24748; 24768; 24753; 24730; 24728; 24777; 24758; 24763; 24774; 29433; 29432; 24741; 24740; 24732; 6828; 24759; 24738; 6886; 29435; 24737; 29436; 6827; 24761; 24733; 24773; 29431; 24776; 6885; 24739; 6887; 29430; 29434]
 [24740; 29430; 29431; 29432; 29433; 29434; 29435; 29436].
Definition enc_cuts_c83 := mkCut [1823; 1822; 1821; 1820; 1819; 1818; 1817; 1816]
 [6952; 6953; 24678; 24675; 6944; 24643; 24677; 24659; 24696; 24684; 6943; 6950; 6946; 6933; 24676; 24644; 6947; 6945; 6936; 6942; 6954; 6939; 6930; 6948; 6937; 6951; 6929; 24683; 6938; 6934; 24682; 6940; 6932; 24681; 24701; 24657; 6920; 24667; 6949; 6935; 24687; 24702; 24688; 24703; 24666; 6925; 6941; 6931; 24658; 24679; 6926; 24710; 24707; 24689; 6928; 6927; 6924; 6923; 6922; 24651; 24704; 24647; 24650; 6921; 6900; 24646; 6891; 24656; 6919; 6918; 6916; 24654; 24655; 24649; 6915; 6913; 6912; 6911; 24686; 24648; 24653; 24694; 24645; 6914; 24652; 6910; 6892; 6897; 6895; 6906; 6898; 6904; 6901; 24691; 6909; 6899; 6908; 6893; 24693; 6902; 24668; 24705; 24671; 6917; 6894; 6903; 24698; 24661; 24699; 6907; 6896; 6905; 24692; 24663; 24674; 24697; 24670; 24665; 6890; 6889; 24680; 24685; 24662; 24660; 24690; 24669; 24695; 24706; 29453; 6956; 29457; 24709; 29452; 24700; 6957; 24673; 24672; 29454; 6888; 24664; 24708; 6955; 29455; 29451; 29456]
 [24672; 29451; 29452; 29453; 29454; 29455; 29456; 29457].
Definition enc_cuts_c84 := mkCut [1831; 1830; 1829; 1828; 1827; 1826; 1825; 1824]
 [24628; 24591; 24607; 7023; 7021; 24608; 7024; 7022; 7018; 7014; 7007; 7013; 7009; 7000; 24609; 7011; 7001; 24590; 24642; 7008; 7004; 24614; 24639; 24610; 24576; 24575; 7012; 6999; 7019; 7005; 24619; 24634; 24611; 24615; 24616; 7017; 7020; 7016; 7003; 6997; 7010; 7002; 24613; 24633; 24589; 6990; 24599; 6996; 7015; 7006; 24620; 24635; 24598; 6995; 24621; 6998; 6994; 24588; 6993; 6989; 6988; 6986; 24586; 6987; 6964; 6985; 24587; 24581; 6983; 24618; 6977; 24626; 6975; 6966; 6984; 6974; 6965; 6973; 6992; 24636; 24583; 24579; 24578; 24582; 6979; 6960; 6969; 24629; 6991; 6982; 6961; 24580; 6970; 24585; 24577; 6976; 24584; 6978; 6963; 6980; 6958; 6967; 24625; 24597; 6972; 24600; 24624; 6968; 24602; 24630; 24593; 24596; 24640; 7025; 29476; 24595; 24631; 24606; 6959; 24612; 6981; 6962; 24632; 6971; 24605; 24604; 24623; 24637; 24603; 7027; 29472; 24617; 24594; 24592; 24641; 29473; 24622; 24627; 24601; 7026; 29477; 24638; 29474; 29475; 29478]
 [24604; 29472; 29473; 29474; 29475; 29476; 29477; 29478].
Definition enc_cuts_c85 := mkCut [1839; 1838; 1837; 1836; 1835; 1834; 1833; 1832]
 [7093; 7091; 24560; 24542; 7092; 7088; 24523; 24539; 24541; 7081; 7071; 24543; 24548; 7080; 7094; 7084; 7077; 7083; 24547; 24553; 7078; 24540; 7079; 24507; 24508; 7089; 7087; 7085; 7072; 7076; 7082; 7075; 7090; 7086; 7073; 7070; 7074; 24522; 24574; 7069; 24551; 24545; 24565; 24521; 7060; 24546; 24571; 7067; 24552; 24530; 7065; 24566; 24567; 7068; 7064; 24520; 7059; 7058; 7056; 24519; 24518; 24513; 24531; 7066; 7057; 7055; 7034; 7043; 7063; 7053; 7062; 24568; 7061; 7031; 7052; 7051; 24512; 24517; 7032; 7048; 7042; 7033; 24515; 24511; 24514; 7049; 7039; 24532; 7030; 24510; 7040; 24563; 7041; 24550; 7047; 7045; 24556; 24527; 24538; 7036; 24558; 7054; 7044; 24509; 7046; 7029; 7038; 24555; 24516; 7050; 7028; 24528; 7035; 7037; 24544; 24549; 24564; 24537; 24536; 24526; 24554; 24533; 24557; 24559; 24561; 24534; 7096; 29498; 24529; 24572; 24562; 7095; 24525; 24524; 24573; 29497; 24569; 29494; 24535; 7097; 29493; 24570; 29496; 29495; 29499]
 [24536; 29493; 29494; 29495; 29496; 29497; 29498; 29499].
Definition enc_cuts_c86 := mkCut [1847; 1846; 1845; 1844; 1843; 1842; 1841; 1840]
 [7163; 7161; 24492; 24480; 7162; 24474; 7164; 7158; 24471; 7154; 24473; 7150; 7153; 7151; 7141; 24475; 7147; 24479; 24485; 24455; 7160; 7156; 7143; 7148; 24472; 24440; 7149; 7157; 7155; 7142; 7146; 7140; 24484; 24499; 7138; 7152; 7139; 24477; 24497; 24454; 24506; 24453; 7130; 24439; 7159; 7145; 24483; 24462; 24498; 7135; 7144; 24478; 24503; 7137; 7134; 24463; 7136; 7133; 7132; 24500; 7131; 7110; 7101; 24452; 7129; 7128; 24451; 7127; 7113; 24495; 24494; 7104; 24457; 7126; 7125; 7123; 7122; 24444; 7118; 7103; 7121; 7102; 7111; 7112; 24482; 7117; 7106; 24490; 7115; 24488; 24459; 24470; 7124; 7105; 24450; 24445; 24449; 24441; 24448; 7120; 7107; 7098; 24489; 24447; 24443; 24446; 7119; 7109; 24493; 24464; 24461; 7100; 24460; 24504; 7165; 29406; 24442; 7116; 7099; 24476; 24496; 24481; 24486; 24469; 24468; 7108; 24487; 24501; 24467; 7167; 29402; 24466; 24465; 29408; 24458; 24456; 24505; 29403; 7114; 24491; 24502; 29404; 7166; 29407; 29405]
 [24468; 29402; 29403; 29404; 29405; 29406; 29407; 29408].
Definition enc_cuts_c87 := mkCut [1855; 1854; 1853; 1852; 1851; 1850; 1849; 1848]
 [24424; 7233; 7231; 24403; 24405; 24387; 7232; 7228; 7234; 7224; 7223; 7217; 7218; 24412; 24406; 24411; 7221; 7214; 7211; 24407; 24417; 7220; 24371; 7229; 7215; 24404; 7219; 24372; 7210; 24386; 7222; 7209; 24415; 7227; 7225; 7216; 7212; 24430; 24409; 24416; 24431; 7208; 24394; 7205; 24410; 24395; 7206; 24438; 24435; 24429; 7230; 7226; 7213; 24385; 7200; 7207; 7204; 24384; 7203; 7202; 24432; 24379; 24375; 7201; 7171; 7180; 7199; 7198; 7197; 7183; 24426; 24427; 7196; 7195; 24414; 7187; 7185; 24382; 24377; 7193; 7192; 24381; 7191; 7181; 24422; 24373; 24380; 7190; 7168; 7177; 7176; 24374; 24383; 7194; 7184; 7175; 7174; 24389; 7186; 7178; 24419; 24378; 7189; 7179; 24425; 24398; 24376; 7188; 7182; 24396; 24420; 24391; 24402; 7173; 24421; 24433; 24393; 24399; 7172; 7170; 24392; 24436; 7235; 29427; 7169; 24408; 24428; 7237; 24413; 24418; 24423; 24397; 7236; 29429; 24401; 24400; 24434; 29425; 29426; 24390; 24388; 24437; 29424; 29423; 29428]
 [24400; 29423; 29424; 29425; 29426; 29427; 29428; 29429].
Definition enc_cuts_c88 := mkCut [1863; 1862; 1861; 1860; 1859; 1858; 1857; 1856]
 [7302; 24335; 7303; 24319; 24356; 7304; 7301; 7298; 24336; 7289; 7280; 24337; 7288; 7284; 24342; 7291; 7281; 24318; 24370; 24367; 24339; 24338; 24303; 7299; 7285; 24304; 7292; 7279; 24347; 24344; 7300; 7297; 7296; 7283; 7295; 7290; 7282; 24341; 24327; 24361; 24317; 7270; 7276; 7277; 24362; 7294; 7287; 7293; 7286; 24343; 24348; 24326; 7275; 24363; 24349; 7278; 7274; 7273; 24316; 7269; 7268; 24315; 24314; 24309; 7272; 24364; 24311; 24307; 24306; 24310; 7259; 7249; 7240; 7267; 7253; 7244; 7266; 7265; 7271; 7241; 24358; 24321; 7250; 24359; 7263; 7262; 24308; 24313; 7258; 7252; 24328; 7243; 7261; 7242; 7251; 24346; 24354; 7264; 7245; 24305; 7254; 7256; 7239; 24340; 24360; 24333; 24312; 7260; 7238; 24324; 7248; 24351; 7247; 7257; 7246; 7255; 24357; 24330; 24345; 24350; 24355; 24366; 7306; 29449; 24329; 29450; 29446; 24352; 24323; 24322; 24334; 24332; 24320; 24369; 29447; 24353; 24365; 24331; 7307; 24325; 24368; 29444; 29445; 7305; 29448]
 [24332; 29444; 29445; 29446; 29447; 29448; 29449; 29450].
Definition enc_cuts_c89 := mkCut [1871; 1870; 1869; 1868; 1867; 1866; 1865; 1864]
 [24268; 24270; 7372; 24236; 24235; 24267; 7373; 7362; 24276; 7369; 7355; 7370; 7366; 7353; 7367; 7364; 7363; 24269; 7371; 7361; 7358; 7360; 7352; 7354; 24274; 7349; 24273; 24279; 24259; 7351; 24271; 7346; 24251; 24288; 7368; 7365; 7357; 24275; 24281; 7356; 7374; 7359; 7350; 24280; 24258; 7345; 24250; 24293; 24294; 24295; 7348; 24302; 24299; 7347; 7344; 7343; 7342; 24243; 24239; 24242; 24238; 24296; 7341; 7320; 7311; 24248; 7339; 24249; 7340; 7338; 7336; 7337; 24246; 24247; 7323; 24241; 7329; 7319; 7310; 7314; 24290; 24291; 7335; 7333; 7332; 24240; 7331; 7312; 7321; 24278; 7328; 7322; 24260; 7313; 24245; 24286; 24237; 7326; 24244; 7330; 7317; 7334; 7324; 7315; 7309; 24272; 7308; 24256; 24285; 7318; 24283; 24292; 24297; 24277; 24265; 7327; 7325; 7316; 24282; 24261; 24284; 24287; 24289; 24257; 24300; 7375; 29469; 29471; 24298; 29467; 29468; 24255; 24266; 24264; 24263; 7377; 29465; 24262; 7376; 29470; 24253; 24254; 24252; 24301; 29466]
 [24264; 29465; 29466; 29467; 29468; 29469; 29470; 29471].
Definition enc_cuts_c90 := mkCut [1879; 1878; 1877; 1876; 1875; 1874; 1873; 1872]
 [24202; 7442; 24200; 24208; 7440; 7437; 7436; 7443; 7423; 24168; 7441; 24220; 7438; 7435; 7444; 7429; 7420; 24199; 7434; 7433; 24201; 7431; 7430; 7428; 7421; 24203; 7424; 24206; 7422; 7426; 24212; 24227; 24182; 24183; 24234; 24231; 7417; 7427; 24207; 24213; 7418; 7414; 7432; 7419; 24205; 24225; 24191; 7416; 7413; 24181; 7410; 24167; 7439; 7425; 24211; 24226; 24190; 7415; 7412; 24228; 7411; 7390; 24180; 7409; 7408; 7406; 7405; 24210; 24218; 7403; 7402; 7401; 7391; 7407; 7397; 24179; 7404; 7385; 24178; 24173; 24177; 24169; 24176; 7400; 7387; 24175; 24171; 24174; 7399; 7389; 24172; 7398; 7392; 24192; 24170; 7396; 7388; 7379; 24215; 7378; 7383; 24217; 24229; 24195; 7394; 7381; 7384; 7382; 7393; 24222; 24185; 24223; 7395; 24216; 24187; 24221; 24194; 24198; 24189; 7380; 24204; 24209; 24224; 7447; 29486; 24197; 24196; 24188; 24232; 24186; 24184; 24233; 29487; 7445; 29490; 7386; 24214; 24193; 24219; 24230; 7446; 29492; 29489; 29491; 29488]
 [24196; 29486; 29487; 29488; 29489; 29490; 29491; 29492].
Definition enc_cuts_c91 := mkCut [1887; 1886; 1885; 1884; 1883; 1882; 1881; 1880]
 [24140; 7512; 24134; 24132; 7507; 7510; 24100; 7514; 7511; 7499; 7506; 7513; 24152; 7508; 7505; 24115; 24131; 24133; 7501; 7500; 7498; 7504; 7503; 7492; 7497; 24139; 7496; 7502; 7489; 24137; 24099; 7509; 7495; 24143; 24158; 7494; 24138; 24123; 7493; 7491; 24135; 7486; 24145; 7490; 24157; 24114; 24166; 24113; 7480; 24144; 24122; 24159; 7485; 7488; 24163; 7487; 7484; 24112; 7479; 7483; 7478; 7476; 7477; 24110; 24105; 24111; 7475; 24142; 7467; 7473; 24150; 7474; 7464; 7456; 7482; 24160; 7481; 7460; 7451; 24107; 24103; 24106; 7469; 7450; 24102; 7472; 7471; 24109; 24101; 24108; 7452; 24104; 7468; 7466; 7449; 24136; 24156; 7470; 7457; 7465; 7463; 24154; 24155; 7462; 24148; 24119; 24130; 7461; 7459; 24153; 24124; 7458; 24147; 24126; 7455; 24141; 24118; 24146; 24151; 7516; 24162; 29397; 29398; 24125; 29401; 7454; 24117; 24116; 24165; 7453; 24149; 24121; 24161; 29396; 24127; 24129; 24128; 7517; 7448; 24120; 24164; 7515; 29399; 29395; 29400]
 [24128; 29395; 29396; 29397; 29398; 29399; 29400; 29401].
Definition enc_cuts_c92 := mkCut [1895; 1894; 1893; 1892; 1891; 1890; 1889; 1888]
 [24064; 7581; 24084; 24063; 24065; 7568; 7584; 7569; 7560; 24066; 24031; 7571; 24032; 7572; 24072; 7580; 7570; 7577; 7562; 7575; 7579; 7565; 24047; 7582; 7561; 24046; 7574; 7573; 7566; 24076; 24091; 24098; 24067; 7576; 7563; 7559; 24075; 24090; 24054; 24069; 24089; 24045; 7555; 7550; 7578; 7567; 24071; 24077; 7558; 7583; 7564; 24070; 24055; 7556; 24095; 7557; 7554; 7553; 7552; 24039; 24035; 24034; 24092; 24038; 24044; 7549; 7548; 24042; 24037; 7547; 24043; 7533; 7524; 7539; 7520; 7529; 7546; 7545; 24074; 24082; 7544; 7525; 7551; 7530; 7521; 24086; 24087; 24049; 7543; 7542; 24041; 7541; 7531; 24036; 7522; 24033; 7536; 7528; 24079; 7519; 24068; 24073; 24088; 24040; 7540; 7527; 7518; 24052; 7538; 7523; 7532; 24061; 24056; 24081; 24093; 24059; 7587; 29416; 7534; 7537; 7526; 24078; 24057; 24083; 29422; 24094; 7535; 24085; 24080; 24051; 24050; 24053; 24096; 24058; 7586; 29421; 24062; 24060; 24048; 24097; 29419; 7585; 29420; 29418; 29417]
 [24060; 29416; 29417; 29418; 29419; 29420; 29421; 29422].
Definition enc_cuts_c93 := mkCut [1903; 1902; 1901; 1900; 1899; 1898; 1897; 1896]
 [24016; 23995; 7653; 24004; 7651; 7652; 7648; 23996; 23997; 7638; 7634; 24002; 7640; 23998; 23964; 23963; 7649; 7654; 7639; 7630; 7650; 7646; 7633; 7647; 7645; 7644; 7637; 24003; 7643; 7636; 23979; 7635; 7642; 7629; 24007; 24022; 7632; 24001; 24021; 23977; 23987; 7620; 7641; 7631; 23999; 7626; 24009; 23978; 24030; 24027; 24008; 24023; 7628; 23986; 7625; 7627; 7624; 7623; 7622; 23976; 7619; 23971; 23967; 23966; 23970; 24024; 7621; 7600; 7591; 7618; 7617; 7616; 23975; 7615; 7613; 7612; 23968; 7608; 23973; 7593; 7602; 7611; 7601; 7592; 24006; 7607; 24014; 7614; 7604; 23965; 7606; 7598; 7589; 23972; 24011; 7605; 24012; 23983; 7596; 7595; 7594; 7603; 24018; 23981; 24019; 23994; 23974; 23969; 7610; 7588; 7597; 24013; 24025; 23991; 7609; 7599; 24017; 23990; 23985; 7590; 23984; 24028; 7655; 29441; 24000; 24020; 24005; 24010; 24015; 7656; 29442; 24026; 29440; 29439; 23993; 23992; 7657; 29437; 23988; 23989; 29443; 23982; 23980; 24029; 29438]
 [23992; 29437; 29438; 29439; 29440; 29441; 29442; 29443].
Definition enc_cuts_c94 := mkCut [1911; 1910; 1909; 1908; 1907; 1906; 1905; 1904]
 [23936; 23948; 23911; 23927; 23929; 7711; 7710; 7721; 7708; 23928; 7723; 7720; 7716; 7717; 7724; 7709; 7700; 23930; 23896; 7715; 23895; 7719; 7705; 7703; 7702; 7704; 23934; 7712; 7722; 7718; 7714; 7707; 7713; 7706; 23940; 23955; 23935; 7701; 23931; 23941; 23910; 23962; 23959; 7697; 7698; 7694; 7699; 23939; 23954; 23908; 7689; 23933; 23953; 23919; 7696; 7693; 23918; 7695; 23909; 7690; 7688; 7687; 7664; 7673; 23906; 23901; 7692; 23903; 23899; 23902; 7679; 7660; 23898; 23907; 23956; 7691; 7661; 23950; 7670; 23951; 23913; 7686; 7685; 23938; 7677; 7683; 7682; 7681; 23905; 7671; 23900; 7678; 7672; 7675; 23944; 23915; 23926; 7663; 7662; 7666; 23946; 7684; 7665; 7674; 23897; 7676; 7659; 23932; 23937; 23914; 23942; 7668; 23943; 23921; 23912; 23961; 23952; 23925; 23924; 23947; 23904; 7680; 7658; 23916; 7667; 23945; 23957; 29459; 23923; 7727; 29458; 23958; 29461; 29460; 7669; 23920; 29464; 23949; 23922; 7726; 23917; 23960; 7725; 29462; 29463]
 [23924; 29458; 29459; 29460; 29461; 29462; 29463; 29464].
Definition enc_cuts_c95 := mkCut [1919; 1918; 1917; 1916; 1915; 1914; 1913; 1912]
 [7793; 23860; 23880; 7791; 23868; 7790; 7794; 7779; 7770; 7787; 7785; 23843; 7786; 7773; 23859; 23861; 7780; 7772; 7778; 7774; 23862; 23827; 7789; 7775; 7781; 7792; 7784; 7771; 7788; 23863; 7777; 23867; 23873; 23842; 23894; 7783; 7776; 23872; 23887; 7768; 23828; 7782; 7769; 23871; 23865; 23885; 23850; 23886; 7765; 23841; 7760; 23866; 23851; 7766; 23891; 7767; 7764; 7763; 7762; 23835; 23831; 23830; 23834; 23840; 7759; 7758; 23839; 7757; 7734; 23838; 23833; 7749; 7739; 7743; 7730; 7756; 7755; 7753; 23870; 23878; 7754; 7735; 7747; 7736; 7745; 23881; 7744; 23888; 7761; 7740; 23883; 7731; 23882; 23845; 7752; 23837; 7751; 7741; 23832; 7748; 7732; 23829; 23836; 7746; 7750; 7737; 7728; 23848; 7738; 23854; 7742; 23876; 23847; 23858; 23852; 7729; 7733; 23877; 23849; 23892; 7795; 29483; 23864; 23869; 23884; 23857; 23846; 23874; 23879; 23856; 23890; 29482; 29481; 7796; 29484; 23844; 23893; 23875; 23853; 29485; 23889; 23855; 7797; 29479; 29480]
 [23856; 29479; 29480; 29481; 29482; 29483; 29484; 29485].
Definition enc_cuts_c96 := mkCut [2695; 2694; 2693; 2692; 2691; 2690; 2689; 2688]
 [25988; 5623; 25968; 5622; 5618; 25976; 25970; 25935; 5619; 25967; 25969; 5611; 5614; 5613; 5608; 5607; 25975; 5621; 5610; 5624; 5609; 5601; 25971; 25981; 5620; 5616; 5617; 5615; 5602; 25951; 25936; 5612; 5606; 5605; 5604; 25974; 5603; 5600; 25980; 25995; 5598; 25950; 26002; 25999; 5597; 5594; 5599; 25973; 25979; 25958; 5595; 25993; 25994; 25959; 5596; 5593; 5592; 25943; 25939; 25949; 5590; 25948; 5589; 25942; 25938; 5588; 5586; 5587; 5573; 25947; 25946; 25941; 5579; 5560; 5569; 5585; 5583; 25978; 5577; 5566; 25986; 5584; 5574; 5575; 25989; 5565; 5564; 25996; 5591; 5582; 25940; 25945; 5561; 5581; 5571; 25937; 5570; 5562; 5578; 5563; 5572; 25960; 25984; 25944; 5580; 5567; 25985; 5558; 25990; 25953; 25991; 25955; 25966; 25956; 25957; 26000; 5625; 29264; 5576; 5559; 5568; 25983; 25997; 25963; 25962; 25972; 25977; 25982; 25987; 25954; 25992; 25952; 26001; 29261; 25998; 29262; 29263; 25965; 25964; 5627; 29260; 5626; 29265; 25961; 29266]
 [25964; 29260; 29261; 29262; 29263; 29264; 29265; 29266].
Definition enc_cuts_c97 := mkCut [2703; 2702; 2701; 2700; 2699; 2698; 2697; 2696]
 [25920; 5691; 25900; 25883; 25899; 25908; 5687; 5685; 5690; 5686; 5673; 25901; 5678; 5680; 5681; 5694; 5679; 25902; 25868; 5682; 5669; 25867; 5689; 5675; 5672; 25905; 5693; 5674; 25906; 25891; 25911; 25926; 5670; 25925; 25881; 5660; 5692; 5684; 5671; 25882; 25903; 5666; 5688; 5677; 25907; 25913; 25934; 25931; 5667; 5683; 5676; 25912; 25890; 5665; 25927; 5668; 5664; 5663; 5662; 25928; 5661; 25880; 5659; 5631; 25875; 25871; 25870; 25874; 5658; 25879; 25878; 5657; 5656; 25873; 5649; 5639; 5630; 5643; 25922; 5655; 5653; 5652; 5651; 25872; 5648; 5633; 25877; 25910; 25918; 25869; 25876; 5654; 5650; 5647; 5646; 5638; 5629; 25904; 5645; 25921; 25894; 5644; 5628; 25888; 5632; 25924; 25897; 5642; 25892; 25916; 25887; 5641; 25915; 5640; 25923; 25898; 25896; 5637; 25917; 25929; 25895; 5697; 25889; 25932; 5695; 29173; 29169; 5636; 5635; 25909; 25886; 25914; 25893; 25919; 5696; 29175; 25930; 29172; 29171; 29174; 5634; 25885; 25884; 25933; 29170]
 [25896; 29169; 29170; 29171; 29172; 29173; 29174; 29175].
Definition enc_cuts_c98 := mkCut [2711; 2710; 2709; 2708; 2707; 2706; 2705; 2704]
 [25832; 5761; 25831; 5764; 5749; 5740; 25840; 5757; 25833; 5751; 5750; 5742; 25815; 25852; 5755; 5760; 5756; 5743; 5762; 5754; 5753; 5746; 25844; 25859; 5741; 25814; 25835; 25866; 5758; 5748; 5747; 25834; 25799; 25800; 5752; 5759; 25839; 25845; 5738; 5763; 5744; 25838; 25863; 5737; 5734; 5739; 25837; 25823; 25857; 25813; 5730; 5736; 5733; 5745; 25843; 25822; 5735; 25858; 25812; 5729; 5732; 25860; 5731; 5701; 25807; 25803; 25806; 25802; 5728; 5727; 5704; 5726; 5725; 5723; 25842; 5717; 5706; 25850; 5722; 25804; 25809; 25801; 5716; 5699; 25808; 5721; 5702; 25811; 5724; 5705; 5715; 5714; 5718; 5703; 5713; 25810; 25805; 5720; 5698; 5719; 5700; 25836; 25856; 25829; 25841; 25846; 25851; 25854; 25817; 5707; 25849; 25820; 5712; 25848; 25819; 25818; 25816; 25865; 5711; 25862; 29193; 5710; 25855; 29192; 25830; 25828; 5709; 25824; 25853; 25821; 25864; 5765; 5708; 25847; 25826; 25861; 25827; 5767; 29190; 5766; 25825; 29196; 29191; 29195; 29194]
 [25828; 29190; 29191; 29192; 29193; 29194; 29195; 29196].
Definition enc_cuts_c99 := mkCut [2719; 2718; 2717; 2716; 2715; 2714; 2713; 2712]
 [25784; 5833; 5831; 5834; 25772; 5830; 5826; 5813; 5832; 25763; 5824; 25747; 5823; 25764; 5827; 5825; 5816; 5828; 5817; 5819; 5810; 25776; 25791; 25765; 5818; 5814; 25770; 5821; 5811; 25746; 25798; 25795; 5807; 5820; 5812; 25766; 25732; 25771; 5822; 5809; 25769; 25755; 25731; 5829; 5815; 25775; 25790; 25754; 5805; 25789; 25745; 5800; 25767; 25777; 5808; 5806; 5804; 25744; 5799; 5798; 25743; 5803; 5802; 25739; 25735; 25734; 25792; 25738; 25742; 25737; 5789; 5779; 5770; 5797; 5774; 5783; 5801; 5780; 5771; 25787; 25786; 25749; 5796; 5795; 5793; 5792; 5791; 5781; 5772; 25741; 25774; 25736; 5788; 5773; 5782; 25756; 25782; 5794; 5775; 5784; 25733; 5786; 5769; 25740; 5778; 25779; 5790; 5777; 25781; 25793; 25759; 5787; 5785; 25785; 25780; 25758; 25751; 25753; 25762; 5776; 5768; 25752; 25796; 25768; 25788; 25761; 25760; 5837; 29211; 25773; 25750; 25748; 25797; 25778; 25757; 29217; 25783; 5836; 29216; 25794; 29212; 29214; 5835; 29215; 29213]
 [25760; 29211; 29212; 29213; 29214; 29215; 29216; 29217].
Definition enc_cuts_c100 := mkCut [2727; 2726; 2725; 2724; 2723; 2722; 2721; 2720]
 [5901; 25696; 25679; 5903; 25695; 25697; 5891; 5888; 5884; 25698; 25663; 5899; 25664; 5892; 5879; 5885; 25702; 25704; 5890; 5900; 5897; 5896; 5883; 5882; 25701; 25687; 25707; 25722; 5902; 5894; 5893; 5881; 25699; 5876; 25716; 5898; 5895; 5886; 5887; 25703; 25709; 5904; 5889; 5880; 25721; 25677; 5870; 25678; 25730; 25727; 5877; 25708; 25723; 5878; 25686; 5875; 5874; 25676; 5873; 5869; 5872; 25671; 25667; 25666; 25724; 5868; 25675; 5867; 5844; 5853; 25674; 25669; 5866; 5865; 5871; 5850; 25719; 5863; 5862; 25673; 25668; 5858; 5852; 5843; 5861; 5851; 5842; 5841; 25670; 5859; 5840; 5849; 25688; 25706; 25714; 25665; 25672; 5856; 5848; 5864; 5845; 5839; 25700; 25720; 25693; 5854; 5860; 5847; 5838; 25684; 25705; 25711; 25713; 25725; 25691; 5907; 29232; 25718; 25681; 5857; 5846; 5855; 25710; 25689; 29238; 25712; 25683; 25682; 25680; 25729; 29233; 25694; 25692; 25715; 25726; 29235; 29234; 25717; 25685; 25690; 25728; 5905; 29236; 5906; 29237]
 [25692; 29232; 29233; 29234; 29235; 29236; 29237; 29238].
Definition enc_cuts_c101 := mkCut [2735; 2734; 2733; 2732; 2731; 2730; 2729; 2728]
 [25648; 25636; 5970; 5966; 25611; 25630; 25627; 25629; 5960; 5958; 5961; 5974; 25628; 5971; 5973; 5972; 5951; 5968; 5959; 5950; 25610; 25662; 25631; 5967; 5965; 5964; 5957; 25635; 5963; 5956; 25640; 25641; 25655; 5948; 5952; 25596; 5962; 5949; 25633; 25653; 25595; 5969; 5955; 25639; 25654; 25618; 5945; 5954; 25634; 25659; 25619; 5946; 5953; 5947; 5944; 5943; 5942; 25603; 25599; 25598; 25656; 5941; 5911; 5920; 25609; 5940; 25608; 5939; 5938; 25607; 25606; 5937; 5914; 25601; 5923; 5936; 5935; 5933; 25638; 5927; 5925; 5916; 25646; 5934; 5924; 5915; 5932; 5931; 5912; 5921; 25650; 25613; 25651; 25605; 25597; 25604; 5930; 5917; 5926; 5918; 5908; 25643; 5909; 25602; 5929; 5919; 5910; 25616; 25632; 25637; 25642; 25647; 25649; 25652; 25658; 29255; 25622; 5976; 29258; 25621; 25600; 5928; 5922; 5913; 25644; 29256; 25645; 25617; 25660; 5975; 29257; 25657; 25625; 25615; 25614; 25612; 25661; 29254; 25626; 25624; 25623; 5977; 29253; 25620; 29259]
 [25624; 29253; 29254; 29255; 29256; 29257; 29258; 29259].
Definition enc_cuts_c102 := mkCut [2743; 2742; 2741; 2740; 2739; 2738; 2737; 2736]
 [25580; 25568; 6040; 6036; 6023; 25543; 6044; 25562; 25527; 6039; 6025; 6043; 6042; 6038; 6041; 25560; 6037; 6035; 6029; 25528; 6020; 25559; 6034; 25561; 6028; 6030; 6031; 6032; 6027; 25567; 6024; 25566; 6022; 6021; 25542; 25594; 25591; 6017; 6019; 25565; 25585; 25551; 25571; 25586; 25541; 6010; 25563; 6016; 25573; 6033; 6026; 25572; 25587; 6018; 25550; 6015; 6014; 6013; 6012; 25588; 25535; 25531; 25534; 25530; 25540; 6009; 6008; 25539; 6007; 25538; 25533; 5999; 5980; 6006; 6005; 25570; 6003; 5997; 6011; 5981; 6002; 6001; 25537; 25532; 5998; 25578; 6004; 25529; 25536; 6000; 5978; 25548; 5996; 5979; 25564; 5995; 5994; 5993; 25582; 5992; 25576; 25547; 5991; 5990; 25583; 25558; 5989; 25581; 25552; 5988; 25554; 25575; 5987; 5986; 5982; 25584; 5985; 25569; 25546; 25574; 25579; 25553; 29168; 25590; 6046; 29167; 29164; 29165; 5984; 25545; 25544; 25593; 5983; 25557; 25556; 25577; 25589; 25555; 6047; 29162; 25549; 29163; 25592; 6045; 29166]
 [25556; 29162; 29163; 29164; 29165; 29166; 29167; 29168].
Definition enc_cuts_c103 := mkCut [2751; 2750; 2749; 2748; 2747; 2746; 2745; 2744]
 [6112; 25512; 6108; 25492; 25491; 6114; 25500; 6107; 6105; 6099; 6090; 6111; 25475; 6110; 6106; 6093; 25493; 6100; 6101; 6091; 25495; 25474; 25526; 6092; 6098; 6113; 6094; 25498; 25523; 6104; 6097; 6103; 6096; 25504; 25519; 6087; 25494; 25499; 25460; 6102; 6089; 25497; 25483; 25505; 25517; 6086; 25473; 6080; 25459; 6109; 6095; 25503; 25518; 25482; 6085; 6088; 6084; 25472; 6083; 6079; 6078; 25471; 6077; 25470; 25465; 6076; 6075; 25502; 6067; 25510; 6074; 6065; 6064; 6063; 6082; 25467; 25520; 6081; 6060; 25515; 6056; 6055; 6054; 6051; 25514; 25477; 6073; 6072; 25469; 6071; 6061; 25461; 25468; 6070; 6057; 6052; 6048; 25463; 25462; 25466; 6069; 6059; 25513; 6066; 6058; 25486; 25507; 6050; 25480; 6049; 25496; 25516; 25501; 25506; 25511; 25522; 29185; 6116; 25485; 29188; 25464; 6068; 6062; 25508; 25479; 29186; 25484; 29189; 25478; 25476; 25490; 6053; 25509; 25489; 25521; 25487; 6117; 25488; 29183; 25525; 29184; 25481; 25524; 6115; 29187]
 [25488; 29183; 29184; 29185; 29186; 29187; 29188; 29189].
Definition enc_cuts_c104 := mkCut [2759; 2758; 2757; 2756; 2755; 2754; 2753; 2752]
 [25426; 6182; 25407; 25444; 25423; 25425; 6171; 6161; 25427; 6178; 6183; 6181; 25424; 25391; 6179; 6165; 25392; 6172; 6159; 6168; 6164; 25430; 25435; 6174; 6167; 25431; 25437; 6173; 25432; 6170; 6184; 6169; 6160; 25406; 25458; 25455; 6180; 6176; 6163; 6157; 6177; 6162; 6175; 6166; 25436; 25451; 25414; 6155; 6158; 6154; 25429; 25449; 25405; 25415; 6156; 6150; 25450; 25404; 6149; 6148; 25403; 25402; 25397; 6147; 6133; 6124; 6146; 6145; 25434; 25442; 6144; 6125; 6134; 6137; 6126; 6135; 6153; 6152; 25452; 25399; 25395; 25398; 6139; 6120; 25394; 6129; 6151; 6130; 6121; 25447; 6143; 6142; 25396; 25401; 25393; 6136; 6128; 6119; 25428; 25400; 6140; 6127; 6118; 25412; 6138; 6123; 25441; 6132; 25440; 25416; 25411; 25422; 6141; 6131; 25439; 6122; 25448; 25421; 25420; 25433; 25410; 25438; 25443; 25417; 29210; 25445; 25418; 25413; 25456; 6186; 29209; 25446; 25409; 25408; 25457; 6185; 29208; 25453; 29205; 25419; 6187; 29204; 25454; 29206; 29207]
 [25420; 29204; 29205; 29206; 29207; 29208; 29209; 29210].
Definition enc_cuts_c105 := mkCut [2767; 2766; 2765; 2764; 2763; 2762; 2761; 2760]
 [6252; 25355; 6253; 25357; 6254; 25376; 6248; 6251; 25339; 6244; 6243; 6237; 6238; 6241; 25364; 25358; 25363; 6231; 25359; 25369; 6234; 25356; 25324; 6239; 6230; 25338; 25362; 6242; 25390; 25387; 6240; 6247; 6232; 6245; 6236; 25368; 25383; 6228; 6250; 6246; 6233; 6227; 6224; 25323; 6249; 6235; 6229; 25361; 25367; 25382; 25381; 25337; 6220; 25347; 6226; 6223; 25346; 6225; 6222; 25384; 6221; 6200; 6191; 25331; 25327; 25326; 25330; 25336; 6219; 6218; 6216; 6217; 6203; 25378; 25379; 6194; 25341; 25334; 25329; 6209; 6190; 6199; 25335; 6215; 25366; 25374; 6207; 6205; 25377; 6196; 6213; 6212; 25333; 6211; 6201; 6192; 25325; 25332; 6210; 6197; 6188; 6214; 6195; 6204; 25328; 6208; 6193; 25373; 25345; 6202; 25348; 25372; 25343; 25354; 25344; 25388; 6255; 29229; 6206; 6198; 25371; 6189; 25360; 25365; 25370; 25375; 25349; 25386; 29228; 29227; 25380; 25385; 25351; 29231; 25353; 25352; 6257; 29225; 25350; 6256; 29230; 25342; 25340; 25389; 29226]
 [25352; 29225; 29226; 29227; 29228; 29229; 29230; 29231].
Definition enc_cuts_c106 := mkCut [2775; 2774; 2773; 2772; 2771; 2770; 2769; 2768]
 [25288; 6323; 6322; 25287; 6314; 25271; 6321; 6324; 25289; 6308; 6309; 6300; 25308; 6318; 6307; 6313; 6304; 25294; 6311; 25290; 25255; 25256; 6319; 6305; 6312; 6299; 25295; 25296; 6310; 6317; 6302; 25293; 25313; 25279; 6315; 6306; 25300; 25315; 6320; 6316; 6303; 25299; 25278; 6295; 25314; 25269; 6290; 6301; 25291; 6296; 25301; 6298; 25270; 25322; 25319; 6297; 6294; 25268; 6293; 6292; 25316; 25263; 6291; 6270; 6261; 6289; 6288; 6286; 6285; 25298; 25306; 6287; 6273; 6264; 6283; 6282; 25260; 6281; 6271; 25266; 25261; 6262; 25311; 25265; 25310; 6277; 6275; 6266; 25273; 25267; 6284; 6274; 6265; 25257; 25264; 6280; 6267; 6258; 25259; 25262; 6279; 6260; 25276; 6269; 25309; 6278; 6272; 25304; 25275; 25280; 25286; 6263; 25305; 25277; 25320; 6325; 29250; 25258; 6276; 6259; 6268; 25303; 25317; 25283; 25292; 25312; 6327; 29246; 25285; 25284; 25297; 25302; 25281; 29252; 25282; 25307; 6326; 25318; 29248; 29251; 29249; 25274; 25272; 25321; 29247]
 [25284; 29246; 29247; 29248; 29249; 29250; 29251; 29252].
Definition enc_cuts_c107 := mkCut [2783; 2782; 2781; 2780; 2779; 2778; 2777; 2776]
 [25222; 25228; 6392; 6391; 25203; 6393; 25240; 25219; 25221; 6381; 6384; 6380; 6371; 6388; 6377; 25223; 6383; 25227; 25233; 6394; 25220; 6387; 6390; 6386; 6385; 6378; 6374; 25226; 6379; 6370; 25202; 25254; 25251; 25188; 6382; 6369; 25187; 6389; 6376; 25232; 25247; 6368; 6375; 25231; 25246; 25210; 6365; 6373; 6367; 6372; 25225; 25211; 6366; 25245; 25201; 6360; 6364; 6363; 25200; 6359; 6358; 6356; 25199; 6355; 6353; 25230; 25238; 6347; 6345; 6354; 25198; 25193; 6357; 6334; 6362; 25248; 6361; 25195; 25191; 25194; 6349; 6352; 6351; 25192; 6348; 6342; 25197; 25189; 25190; 25236; 25207; 25196; 6350; 6337; 6328; 6333; 25237; 6346; 6329; 6344; 6343; 6341; 6340; 25243; 25218; 6339; 25212; 25241; 25209; 6338; 25235; 25249; 25215; 25214; 6336; 6335; 6332; 6331; 25242; 25205; 6330; 25224; 25229; 25206; 25204; 25253; 25234; 25213; 29161; 29156; 25239; 6396; 29160; 25244; 6397; 25217; 25216; 29155; 25250; 29157; 29158; 25208; 25252; 6395; 29159]
 [25216; 29155; 29156; 29157; 29158; 29159; 29160; 29161].
Definition enc_cuts_c108 := mkCut [2791; 2790; 2789; 2788; 2787; 2786; 2785; 2784]
 [6462; 25160; 25154; 25119; 6460; 6459; 6445; 25172; 6461; 6464; 25135; 6458; 6463; 6456; 6443; 25151; 25153; 6448; 6454; 6453; 6447; 25159; 6444; 6450; 6451; 6441; 25155; 25165; 25152; 6457; 25158; 6442; 6449; 6440; 25134; 25186; 25183; 25120; 6452; 6439; 25163; 25178; 25157; 25177; 25133; 25143; 6436; 6430; 6437; 6455; 6446; 25164; 25142; 6435; 25179; 6438; 6434; 25132; 6433; 6429; 6428; 6427; 6413; 6426; 6425; 25162; 25170; 6432; 25127; 25123; 25126; 25122; 25130; 25125; 6419; 6409; 6400; 6423; 25131; 6424; 6405; 6404; 6414; 25180; 6431; 6422; 25129; 6421; 6402; 6401; 25121; 25128; 6416; 6420; 6399; 6398; 25140; 25174; 25137; 6411; 25156; 25161; 25176; 6410; 25175; 6408; 25167; 25124; 6418; 6403; 25149; 6412; 25144; 6407; 25169; 25181; 25147; 6467; 29176; 6417; 6415; 25168; 25173; 25141; 25139; 25150; 25148; 25138; 25136; 25185; 25146; 29177; 25184; 6465; 29180; 6406; 25166; 25145; 29182; 25171; 6466; 29181; 25182; 29179; 29178]
 [25148; 29176; 29177; 29178; 29179; 29180; 29181; 29182].
Definition enc_cuts_c109 := mkCut [2799; 2798; 2797; 2796; 2795; 2794; 2793; 2792]
 [25104; 6534; 6531; 6532; 6528; 25084; 6533; 25067; 25083; 6524; 6517; 6523; 6519; 6510; 25085; 6521; 6518; 6511; 25066; 25118; 6514; 25090; 25115; 25086; 25051; 25052; 6522; 6529; 6515; 6509; 25095; 25110; 25087; 25091; 25097; 25092; 6527; 6530; 6520; 6512; 25089; 25109; 25075; 6506; 6526; 6513; 25065; 6507; 6500; 6525; 6516; 25096; 25111; 6508; 6504; 25074; 25064; 6499; 6498; 25062; 25057; 6497; 6474; 6496; 6483; 6495; 25063; 6503; 6493; 6505; 6502; 25112; 6501; 6471; 6492; 25059; 25055; 25058; 25054; 6491; 25056; 6488; 6482; 6473; 25106; 25069; 6481; 6480; 25107; 25061; 6489; 6470; 6479; 25076; 6472; 25094; 6487; 6485; 6476; 25105; 25100; 25071; 25082; 25102; 6494; 6484; 6475; 25053; 6486; 6469; 25060; 6490; 6477; 6468; 25072; 25101; 25073; 25116; 6535; 29201; 6478; 25099; 25113; 25079; 25078; 25088; 25108; 6537; 29197; 25081; 25080; 25093; 25070; 25068; 25117; 25098; 25103; 25114; 29199; 6536; 29202; 29198; 29200; 25077; 29203]
 [25080; 29197; 29198; 29199; 29200; 29201; 29202; 29203].
Definition enc_cuts_c110 := mkCut [2807; 2806; 2805; 2804; 2803; 2802; 2801; 2800]
 [6602; 6603; 25024; 6600; 6596; 6583; 25036; 24999; 6604; 6601; 6598; 25018; 24983; 6599; 6585; 25015; 6594; 6593; 6587; 25023; 25016; 6589; 6597; 6595; 6586; 6580; 24984; 6592; 6579; 25028; 25043; 25027; 25006; 25042; 6575; 25017; 6591; 6581; 25019; 24998; 25050; 6588; 25029; 6578; 6590; 6584; 25022; 25047; 6577; 6574; 24996; 6569; 6582; 25021; 25007; 25041; 24997; 6570; 6576; 6568; 24995; 24994; 24989; 6567; 6544; 6566; 6565; 25026; 6557; 6546; 25034; 6564; 6545; 6553; 6555; 6554; 6573; 6572; 25044; 24991; 24987; 24990; 24986; 6559; 6540; 6571; 6541; 25038; 25001; 6549; 25037; 6550; 25039; 6563; 6562; 24993; 24985; 24992; 6560; 6547; 6538; 25004; 6561; 6551; 6542; 24988; 6558; 6543; 25033; 25005; 25048; 6605; 6556; 6548; 25031; 25045; 25011; 25010; 6539; 25020; 25025; 25040; 6607; 25013; 25030; 25035; 25046; 6606; 29223; 25009; 29220; 6552; 25008; 29224; 29218; 29222; 25032; 29221; 25003; 25002; 25000; 25049; 29219; 25014; 25012]
 [25012; 29218; 29219; 29220; 29221; 29222; 29223; 29224].
Definition enc_cuts_c111 := mkCut [2815; 2814; 2813; 2812; 2811; 2810; 2809; 2808]
 [6673; 24950; 24915; 6669; 6655; 6671; 24931; 6674; 24947; 24949; 6661; 6658; 6654; 24948; 6659; 6650; 24954; 24956; 6667; 6660; 6652; 6672; 6651; 24951; 24930; 24982; 24979; 6664; 6663; 24968; 6668; 6665; 6657; 24955; 6656; 24960; 24961; 6670; 6666; 6653; 6647; 24975; 6648; 6644; 24916; 6662; 6649; 24953; 24959; 24974; 24928; 6639; 24938; 6645; 24939; 6646; 24973; 24929; 6640; 6638; 6637; 24927; 24926; 6614; 6623; 6636; 6635; 24958; 6627; 6625; 6616; 24966; 6634; 6624; 6615; 6643; 6642; 6633; 24923; 24919; 24918; 24922; 24976; 6641; 6620; 6632; 24920; 6628; 6613; 6611; 6622; 24964; 24935; 6631; 6621; 6612; 24970; 24933; 24971; 24946; 24921; 6629; 6619; 24969; 6610; 24940; 24925; 24917; 6626; 6609; 6618; 24963; 24924; 6630; 6608; 6617; 24952; 24972; 24945; 24944; 24957; 24962; 24965; 24967; 24978; 29242; 29241; 24977; 24943; 6677; 29239; 24942; 6676; 29244; 24941; 29245; 24936; 24937; 24980; 6675; 29243; 24934; 24932; 24981; 29240]
 [24944; 29239; 29240; 29241; 29242; 29243; 29244; 29245].
Definition enc_cuts_c112 := mkCut [2567; 2566; 2565; 2564; 2563; 2562; 2561; 2560]
 [4501; 27056; 27076; 27039; 27055; 27057; 4491; 4488; 4503; 4484; 27062; 27064; 4490; 4497; 4495; 4482; 4500; 4496; 4483; 4502; 4481; 27059; 4494; 4504; 4498; 4489; 4493; 4486; 4487; 27058; 27063; 27069; 27024; 4492; 4479; 27061; 27047; 4476; 27023; 4480; 27068; 27083; 4478; 27081; 27037; 4470; 27038; 27090; 27087; 4477; 4474; 4473; 4499; 4485; 27067; 27082; 27046; 4475; 4472; 27084; 4471; 4441; 4450; 27031; 27027; 27030; 27026; 27036; 4469; 4468; 4466; 4467; 4444; 4453; 27079; 27035; 27078; 27041; 4465; 4463; 4462; 27028; 4458; 4443; 4452; 27066; 4457; 27074; 4455; 27072; 27043; 27054; 4446; 27034; 4464; 27033; 27025; 27032; 4456; 4448; 4439; 4461; 4451; 27071; 4454; 27029; 4459; 4460; 4440; 27060; 4449; 4438; 27048; 27077; 27050; 27044; 4445; 27065; 27070; 27049; 29026; 27042; 27040; 27089; 27075; 4506; 29025; 27086; 29023; 29022; 4442; 27080; 27053; 27052; 4447; 27073; 27045; 27088; 4505; 27085; 27051; 4507; 29021; 29020; 29024]
 [27052; 29020; 29021; 29022; 29023; 29024; 29025; 29026].
Definition enc_cuts_c113 := mkCut [2575; 2574; 2573; 2572; 2571; 2570; 2569; 2568]
 [4574; 26971; 27008; 26987; 26990; 26955; 4569; 4555; 26996; 4570; 4572; 4564; 4568; 4557; 26995; 4573; 4571; 4563; 4566; 4553; 26988; 26956; 4567; 4562; 4549; 4565; 4556; 26999; 27014; 4559; 4550; 27000; 26978; 27015; 4545; 26989; 4558; 4554; 4560; 4552; 4561; 4551; 26970; 27022; 26994; 27019; 4547; 26993; 27013; 26969; 4540; 26979; 26991; 4546; 27001; 4548; 4544; 4543; 26968; 4539; 4542; 27016; 4538; 26967; 26966; 26961; 26963; 26959; 26962; 4529; 4510; 26958; 4519; 4537; 4514; 4523; 4536; 4535; 4533; 4541; 4511; 27010; 26973; 4532; 26960; 4528; 4513; 26965; 4522; 26980; 4520; 27011; 4531; 4521; 4512; 26998; 27006; 26957; 4526; 4509; 26992; 4518; 27003; 26964; 4530; 4517; 27012; 26985; 27005; 27017; 26983; 4577; 28929; 4534; 4515; 4524; 4508; 26976; 26997; 4527; 4516; 4525; 27009; 26977; 27020; 4575; 28933; 26982; 27004; 26975; 26986; 26984; 26974; 26972; 27021; 28930; 27002; 26981; 28935; 27007; 4576; 28934; 27018; 28931; 28932]
 [26984; 28929; 28930; 28931; 28932; 28933; 28934; 28935].
Definition enc_cuts_c114 := mkCut [2583; 2582; 2581; 2580; 2579; 2578; 2577; 2576]
 [26903; 4644; 26919; 26921; 4628; 26940; 26928; 4630; 4640; 4636; 4631; 4623; 26922; 26887; 4639; 4625; 4643; 4641; 4624; 4642; 4638; 4621; 26923; 4634; 4627; 4633; 26927; 26933; 26920; 4637; 4635; 4629; 4620; 26902; 4626; 26932; 26947; 4618; 26954; 4622; 26926; 26888; 4632; 4619; 26925; 26945; 26931; 26946; 26901; 26910; 4615; 26911; 4616; 4610; 26951; 4617; 4614; 4613; 4612; 26895; 26948; 4611; 4581; 4590; 26900; 4609; 4608; 4606; 4607; 26899; 4584; 4593; 4605; 4603; 26930; 4597; 4595; 4586; 26898; 26893; 4602; 4601; 26892; 4598; 4583; 26943; 26938; 4604; 4585; 4594; 4592; 26936; 4591; 26897; 26889; 26896; 26942; 26905; 26891; 26890; 4596; 4588; 26935; 4579; 26894; 4599; 4589; 4580; 26912; 26941; 26924; 26929; 26914; 26934; 26913; 28956; 26939; 4646; 28955; 26950; 28953; 28952; 26907; 26906; 26904; 26953; 26918; 4582; 26944; 26917; 26916; 4600; 4578; 26908; 4587; 26937; 26909; 26952; 26949; 28951; 4645; 26915; 4647; 28950; 28954]
 [26916; 28950; 28951; 28952; 28953; 28954; 28955; 28956].
Definition enc_cuts_c115 := mkCut [2591; 2590; 2589; 2588; 2587; 2586; 2585; 2584]
 [4711; 4713; 26872; 26860; 4710; 4706; 4693; 4714; 4712; 4708; 26854; 26819; 4709; 4695; 26851; 26853; 4698; 4701; 4704; 4697; 4703; 4694; 26859; 4700; 4691; 26855; 26865; 26852; 26858; 4707; 26820; 4702; 4692; 4705; 4696; 4699; 4690; 26834; 26864; 26879; 4688; 4689; 26857; 26843; 26863; 26878; 26842; 4685; 4686; 26877; 26833; 4680; 26835; 26886; 26883; 4687; 4684; 4683; 4682; 26827; 26823; 26826; 26822; 26880; 4681; 4660; 4651; 26832; 4679; 4678; 26830; 26831; 4677; 4676; 4663; 4654; 4675; 26862; 26870; 4674; 4655; 26874; 26837; 4667; 4656; 4665; 26825; 4669; 4650; 4659; 26873; 26875; 4664; 4673; 4672; 26824; 4671; 4652; 4668; 4653; 4662; 26844; 26868; 26839; 26829; 26821; 4666; 26828; 4670; 4657; 4658; 26846; 26869; 26841; 4649; 26856; 26876; 26861; 26866; 26838; 26836; 26885; 4648; 26840; 26884; 4715; 28975; 4661; 26867; 26845; 26881; 26847; 4717; 28972; 28971; 28977; 26849; 26850; 26848; 26871; 4716; 28976; 26882; 28974; 28973]
 [26848; 28971; 28972; 28973; 28974; 28975; 28976; 28977].
Definition enc_cuts_c116 := mkCut [2599; 2598; 2597; 2596; 2595; 2594; 2593; 2592]
 [4783; 4781; 26804; 26792; 4782; 4778; 4784; 26786; 4780; 26784; 26752; 4769; 26751; 4777; 4775; 4760; 4779; 4765; 4776; 4763; 26767; 26783; 4772; 4774; 4773; 4759; 4767; 26791; 26785; 4770; 4762; 26789; 26809; 4768; 4764; 26765; 26790; 4766; 26796; 4750; 26775; 26795; 26774; 4755; 4771; 4761; 26766; 26818; 26815; 4757; 26787; 4756; 26811; 26797; 4758; 4754; 4753; 4752; 26812; 26759; 26755; 26758; 26754; 26810; 4751; 4730; 4721; 26764; 4749; 4748; 26763; 4747; 4724; 4733; 26806; 26807; 26769; 4746; 4745; 4743; 26794; 26802; 4737; 4744; 4725; 4734; 4735; 4742; 26761; 26753; 4741; 4722; 26756; 4738; 4732; 26800; 26771; 26782; 4723; 26760; 4736; 4719; 4728; 4731; 26799; 26762; 26757; 4740; 4739; 4729; 26776; 26805; 4718; 26778; 4727; 26801; 26773; 26813; 26779; 4726; 4720; 26772; 26816; 26788; 26808; 26781; 4787; 28992; 26780; 26793; 26770; 26798; 26777; 28998; 26803; 26814; 28994; 28995; 4786; 28997; 26768; 26817; 28993; 4785; 28996]
 [26780; 28992; 28993; 28994; 28995; 28996; 28997; 28998].
Definition enc_cuts_c117 := mkCut [2607; 2606; 2605; 2604; 2603; 2602; 2601; 2600]
 [4853; 26724; 26736; 4851; 4854; 4852; 26718; 4848; 26683; 4849; 4835; 26716; 4839; 26684; 4830; 4847; 4845; 4850; 4846; 4833; 26715; 4842; 4844; 4829; 26727; 26742; 4837; 26723; 26717; 4840; 4838; 4834; 26722; 4841; 4831; 26698; 26719; 26729; 4832; 26721; 26707; 4826; 26741; 26697; 4820; 26699; 26750; 26747; 4827; 4843; 4836; 26728; 26743; 4828; 26706; 4825; 4824; 4823; 26696; 4819; 4818; 26695; 26694; 26689; 4816; 4815; 26726; 4813; 4817; 4803; 4794; 4807; 4796; 4805; 4822; 26744; 4821; 4812; 26693; 4791; 4800; 26739; 4811; 4792; 4801; 26688; 4808; 4802; 26732; 26703; 4793; 26738; 26701; 26734; 4814; 26685; 26692; 4810; 4797; 26733; 4788; 4795; 4804; 26691; 26687; 26690; 26686; 4806; 4798; 26731; 4789; 26745; 26711; 4809; 4790; 26720; 4799; 26704; 26737; 26710; 26705; 26748; 4855; 26740; 4857; 29013; 26713; 29017; 26708; 26725; 26702; 26700; 26749; 29014; 26730; 26709; 29019; 26735; 4856; 29018; 26746; 29016; 29015; 26714; 26712]
 [26712; 29013; 29014; 29015; 29016; 29017; 29018; 29019].
Definition enc_cuts_c118 := mkCut [2615; 2614; 2613; 2612; 2611; 2610; 2609; 2608]
 [4923; 26668; 4921; 26648; 26650; 4924; 26615; 4919; 4905; 4909; 4900; 26616; 4922; 26647; 4914; 26631; 4913; 26649; 4911; 4908; 4904; 26654; 4912; 4899; 26659; 26674; 4918; 4907; 4901; 26651; 26630; 26682; 26679; 26655; 26661; 26656; 4917; 4915; 4910; 4902; 26653; 26673; 26639; 4896; 4906; 26660; 26638; 26675; 4895; 4898; 4920; 4916; 4903; 4897; 4894; 26628; 4893; 4889; 26629; 4890; 4888; 4887; 4864; 4873; 4886; 26626; 4885; 4883; 26658; 26627; 26666; 4892; 26623; 26619; 26622; 4884; 4874; 4865; 26618; 26676; 4891; 4882; 4870; 4861; 4881; 4871; 26620; 4878; 4872; 4863; 26625; 26617; 4876; 4868; 26663; 26624; 4862; 26671; 4859; 26670; 26633; 4877; 4866; 4875; 26664; 26635; 26646; 26621; 4879; 4860; 26652; 4869; 26669; 26642; 26640; 4880; 4867; 26665; 26637; 26677; 26643; 26657; 26662; 26634; 26632; 26681; 28923; 26667; 26678; 28925; 4926; 28927; 28924; 26672; 4927; 26645; 26644; 4858; 26636; 26680; 4925; 28926; 28922; 26641; 28928]
 [26644; 28922; 28923; 28924; 28925; 28926; 28927; 28928].
Definition enc_cuts_c119 := mkCut [2623; 2622; 2621; 2620; 2619; 2618; 2617; 2616]
 [4993; 26579; 4991; 26581; 26600; 26563; 4978; 4974; 26580; 26586; 4981; 26588; 4980; 4990; 4986; 4987; 4985; 4973; 4972; 26582; 26548; 4992; 4988; 4994; 4979; 4970; 4984; 4977; 4983; 4976; 26587; 26592; 26607; 4982; 4969; 26585; 26605; 26561; 26571; 4960; 26547; 4989; 4975; 26591; 26606; 26570; 4965; 4971; 26583; 26593; 4968; 4966; 26562; 26614; 26611; 4967; 4964; 4963; 26560; 4959; 4958; 4957; 26559; 4934; 4956; 4955; 4953; 26590; 4947; 4936; 26598; 4954; 4944; 4935; 26558; 26553; 4962; 26555; 26608; 4961; 4940; 4931; 26551; 26554; 4949; 4939; 26550; 4952; 26552; 26557; 26549; 4946; 4938; 4951; 4941; 4932; 26595; 26556; 4950; 4937; 4948; 4933; 26597; 26609; 26575; 4945; 26601; 26574; 26569; 4943; 26602; 26603; 26565; 4942; 26596; 26567; 26578; 26572; 4930; 4929; 26584; 26589; 26566; 26594; 26599; 26604; 26610; 28946; 28945; 26577; 26576; 4997; 4996; 28948; 26573; 28949; 26564; 26613; 28944; 4928; 26568; 26612; 4995; 28947; 28943]
 [26576; 28943; 28944; 28945; 28946; 28947; 28948; 28949].
Definition enc_cuts_c120 := mkCut [2631; 2630; 2629; 2628; 2627; 2626; 2625; 2624]
 [26511; 5062; 5054; 5063; 5053; 26513; 5064; 5061; 26532; 5058; 5047; 26495; 5051; 26514; 26519; 5041; 26520; 5050; 26515; 26525; 5048; 5060; 5056; 26512; 5049; 5040; 26494; 5057; 5055; 26480; 26546; 5042; 5044; 26518; 26543; 5052; 5039; 26517; 26537; 26503; 26479; 5059; 5045; 26523; 26538; 5046; 26524; 26502; 26539; 5038; 5035; 5043; 26493; 5030; 5037; 5034; 5036; 5033; 5032; 26487; 26483; 26482; 26486; 26540; 5031; 26492; 5029; 5028; 26491; 5027; 5004; 5026; 5025; 5023; 5022; 26489; 26484; 5013; 5021; 5018; 5012; 26522; 5017; 5015; 26530; 26481; 5016; 26488; 5024; 26528; 26499; 26490; 26485; 5020; 5019; 4998; 5014; 5011; 5010; 26535; 26510; 5009; 26504; 26533; 5008; 26527; 26506; 5007; 5006; 5005; 5003; 26529; 26541; 26507; 26501; 5002; 5001; 26534; 26497; 5000; 26500; 26544; 5065; 4999; 26516; 26536; 26509; 26508; 5067; 26521; 26526; 26505; 28970; 26498; 26531; 5066; 26542; 28966; 28967; 26496; 26545; 28965; 28964; 28969; 28968]
 [26508; 28964; 28965; 28966; 28967; 28968; 28969; 28970].
Definition enc_cuts_c121 := mkCut [2639; 2638; 2637; 2636; 2635; 2634; 2633; 2632]
 [26427; 26443; 26445; 26464; 5134; 5133; 5131; 5132; 5124; 5128; 5117; 5123; 26446; 26451; 26411; 5129; 5115; 5121; 5111; 5118; 5114; 26444; 5119; 5110; 26426; 26478; 26412; 5122; 5109; 26455; 26447; 26450; 26475; 26452; 5130; 5120; 5126; 5113; 5107; 26457; 5127; 5112; 5125; 5116; 26449; 26469; 26425; 5100; 26435; 5106; 26456; 26471; 5108; 5104; 5103; 26434; 5105; 5102; 26419; 26415; 26418; 26472; 26414; 26470; 5101; 26424; 5099; 5098; 26423; 5080; 5071; 26422; 26417; 5089; 5070; 5079; 5096; 5095; 26454; 5087; 5076; 5085; 26465; 5097; 5074; 5083; 26466; 26429; 5093; 5092; 26416; 5088; 5073; 5082; 26460; 26431; 26436; 26421; 5091; 5081; 5072; 26462; 5094; 5084; 26413; 26420; 5090; 5068; 26432; 5086; 5078; 26438; 26459; 5069; 5075; 5077; 26461; 26473; 26433; 26476; 5135; 28989; 26448; 26453; 26458; 26437; 26430; 26428; 28991; 26477; 28986; 26463; 5136; 28990; 26474; 28988; 26467; 26442; 28987; 26468; 26441; 26440; 26439; 5137; 28985]
 [26440; 28985; 28986; 28987; 28988; 28989; 28990; 28991].
Definition enc_cuts_c122 := mkCut [2647; 2646; 2645; 2644; 2643; 2642; 2641; 2640]
 [26396; 5204; 26375; 26377; 5188; 26359; 5203; 5184; 5202; 5198; 5201; 26376; 5189; 26382; 5194; 5187; 5193; 5180; 26378; 5191; 26384; 26383; 5190; 5200; 5196; 5183; 5197; 5195; 26344; 5192; 5179; 26343; 5199; 5186; 26388; 26403; 5185; 26387; 26366; 5175; 26402; 5182; 26381; 26367; 26401; 26357; 5170; 5181; 26358; 26379; 26389; 5178; 5176; 26410; 26407; 5177; 5174; 5173; 5172; 26351; 26347; 26346; 26404; 26350; 5171; 5141; 26356; 5169; 5168; 26354; 5166; 5167; 5153; 5144; 26398; 26361; 26349; 5159; 5149; 5140; 26355; 5165; 5163; 26386; 5157; 26394; 5164; 5162; 5161; 26353; 26345; 26352; 5160; 5138; 26364; 26348; 5158; 5152; 26368; 5156; 5148; 5139; 26380; 5155; 26397; 26392; 26363; 26370; 5154; 5151; 26391; 5150; 26399; 26374; 5147; 5146; 5145; 26385; 26390; 26369; 29012; 26395; 26406; 29009; 29008; 5206; 29011; 26362; 26360; 26409; 5143; 26393; 26405; 29007; 26371; 26365; 26408; 5205; 29010; 5142; 26400; 26373; 26372; 5207; 29006]
 [26372; 29006; 29007; 29008; 29009; 29010; 29011; 29012].
Definition enc_cuts_c123 := mkCut [2655; 2654; 2653; 2652; 2651; 2650; 2649; 2648]
 [5272; 5271; 26328; 5268; 26291; 5273; 26307; 26309; 5264; 5263; 5257; 5274; 26310; 26316; 5260; 26315; 5261; 5251; 26311; 26321; 26308; 26276; 5258; 5267; 5265; 5270; 5266; 5259; 5250; 26290; 5262; 5249; 5256; 26320; 5254; 26314; 5253; 26335; 5248; 26342; 26339; 5252; 26313; 26333; 26299; 5246; 26289; 5240; 26275; 5269; 5255; 26319; 26298; 26334; 5245; 5247; 5244; 5243; 5242; 26336; 5241; 5220; 26288; 5239; 5238; 26286; 26281; 5236; 5235; 26318; 5227; 5225; 5216; 26287; 26326; 5234; 5215; 5224; 5233; 5232; 5231; 5221; 26280; 5228; 5222; 26324; 26295; 26285; 26277; 26284; 5230; 5217; 26283; 26279; 26282; 26278; 5226; 5218; 26323; 5229; 5210; 5219; 26329; 26300; 26302; 5213; 26325; 26337; 26303; 26297; 5237; 5223; 5214; 26331; 26306; 5212; 5211; 26330; 26293; 5209; 26312; 26332; 26305; 26304; 5277; 26317; 26294; 26292; 26341; 28916; 26322; 26301; 28921; 26327; 5276; 26338; 28917; 28918; 5208; 26296; 26340; 5275; 28915; 28920; 28919]
 [26304; 28915; 28916; 28917; 28918; 28919; 28920; 28921].
Definition enc_cuts_c124 := mkCut [2663; 2662; 2661; 2660; 2659; 2658; 2657; 2656]
 [26248; 5343; 26240; 26242; 26208; 26207; 5339; 5325; 5342; 5340; 5336; 5323; 5337; 5344; 26239; 5334; 5333; 26223; 5329; 5320; 5332; 5341; 5319; 26241; 5331; 5321; 26222; 26274; 5328; 5324; 5330; 5322; 26245; 26265; 26221; 5310; 26243; 26246; 26231; 26271; 5316; 5317; 26251; 26266; 26260; 5335; 5326; 5338; 5327; 26247; 26253; 26252; 26230; 5315; 26267; 5318; 5314; 5313; 5312; 26215; 26268; 26220; 5309; 5308; 26219; 26218; 26213; 26211; 26210; 26214; 5299; 5280; 5289; 5307; 5293; 5284; 5306; 5305; 5303; 5311; 5281; 5302; 5301; 5282; 26217; 5291; 5290; 26212; 5298; 5283; 5292; 26232; 26250; 5297; 5295; 26256; 26227; 26261; 5286; 26258; 5304; 5294; 26209; 5296; 5288; 5279; 5285; 26255; 26216; 5300; 5287; 5278; 26228; 26244; 26264; 26237; 26249; 26226; 26254; 26233; 28942; 26257; 26269; 26229; 26272; 26259; 26270; 28939; 26262; 26225; 5345; 26224; 26273; 28940; 28937; 26263; 26238; 28938; 26236; 26235; 5347; 28936; 26234; 5346; 28941]
 [26236; 28936; 28937; 28938; 28939; 28940; 28941; 28942].
Definition enc_cuts_c125 := mkCut [2671; 2670; 2669; 2668; 2667; 2666; 2665; 2664]
 [26192; 26180; 5410; 26174; 5414; 5406; 5393; 26172; 5399; 5407; 5405; 5411; 5412; 5408; 5413; 26140; 26139; 5409; 5395; 5390; 26171; 26155; 26173; 5400; 5392; 5398; 5404; 5403; 5401; 5402; 5389; 26183; 26177; 26197; 26198; 26153; 5380; 5397; 26179; 5396; 26184; 26199; 26162; 5385; 5394; 26178; 26163; 5391; 26154; 26175; 26185; 5388; 5386; 26206; 26203; 5387; 5384; 5383; 26152; 5379; 5382; 26200; 5381; 5351; 5360; 26147; 26143; 26142; 26146; 5378; 5377; 5354; 5376; 5375; 5373; 5363; 26195; 26194; 5372; 5371; 5352; 5361; 26182; 26190; 5367; 5365; 26144; 5368; 5362; 26188; 26159; 5353; 26170; 26157; 26151; 5374; 5364; 26150; 26145; 5369; 5350; 5359; 26193; 26164; 26149; 26141; 26148; 5370; 5348; 26160; 5357; 26189; 26161; 26204; 5415; 28961; 5366; 5349; 26176; 26196; 5358; 26166; 26187; 26201; 26169; 26168; 26167; 5417; 28957; 5356; 5355; 26181; 26186; 26191; 26202; 28959; 28960; 5416; 28962; 26165; 28963; 26158; 26156; 26205; 28958]
 [26168; 28957; 28958; 28959; 28960; 28961; 28962; 28963].
Definition enc_cuts_c126 := mkCut [2679; 2678; 2677; 2676; 2675; 2674; 2673; 2672]
 [5483; 26103; 26104; 26112; 5480; 5477; 26106; 26072; 5472; 26071; 5479; 5465; 5476; 5463; 5482; 5474; 5473; 26087; 26124; 5475; 5466; 5484; 26105; 5468; 5471; 5470; 5462; 5481; 5459; 26115; 26130; 5478; 5469; 26109; 5467; 26111; 5461; 26107; 26117; 5464; 26110; 26095; 5456; 5460; 26129; 26116; 26094; 26085; 5450; 5455; 26131; 5458; 26086; 26138; 26135; 5457; 5454; 26084; 5449; 5453; 5452; 26079; 26075; 26078; 26074; 26132; 5451; 5448; 5446; 5445; 5443; 26114; 5437; 26083; 26082; 26077; 5439; 5447; 26122; 5444; 5425; 5442; 26076; 5438; 5441; 5431; 26081; 26073; 26080; 5440; 5436; 5419; 5435; 5434; 5433; 5432; 26120; 26091; 5430; 26127; 26102; 5429; 26125; 26096; 5428; 26119; 26098; 5427; 5426; 5424; 5423; 26121; 26093; 26133; 26099; 5422; 5421; 26126; 26089; 5420; 26108; 26128; 5487; 26113; 26118; 26123; 26097; 28984; 5486; 26134; 28980; 28981; 26101; 26100; 26090; 26088; 26137; 28979; 28983; 5418; 26092; 26136; 5485; 28982; 28978]
 [26100; 28978; 28979; 28980; 28981; 28982; 28983; 28984].
Definition enc_cuts_c127 := mkCut [2687; 2686; 2685; 2684; 2683; 2682; 2681; 2680]
 [5553; 26036; 26035; 26044; 5547; 5550; 5546; 5533; 26038; 26004; 5542; 26003; 5549; 5535; 5552; 5544; 5543; 26056; 5551; 5548; 5537; 26043; 5529; 26019; 5554; 5545; 5536; 5539; 5530; 26048; 26037; 5540; 5532; 26041; 26061; 26017; 5520; 5538; 5534; 26042; 26027; 5541; 5531; 26018; 26070; 26067; 5527; 26039; 26049; 5526; 26047; 26026; 26062; 5525; 26063; 5528; 5524; 26016; 5519; 5518; 26015; 26014; 26009; 5517; 5503; 5494; 5516; 5515; 26046; 5507; 5505; 5496; 26054; 5514; 5495; 5504; 5523; 5522; 26011; 26007; 26006; 26010; 5509; 5490; 5499; 26057; 5513; 26064; 5521; 5491; 26058; 26021; 5512; 26008; 5508; 5493; 5502; 26028; 26052; 26023; 26013; 26005; 5506; 5489; 5500; 26059; 26034; 26012; 5510; 5497; 26053; 26025; 5488; 26024; 26068; 5555; 29003; 5498; 26030; 5511; 5492; 5501; 26040; 26060; 26033; 26032; 26045; 26022; 26020; 26069; 26050; 26051; 26029; 29005; 26055; 26066; 5556; 29004; 29002; 29001; 26065; 26031; 5557; 28999; 29000]
 [26032; 28999; 29000; 29001; 29002; 29003; 29004; 29005].
Definition enc_cuts_c128 := mkCut [2439; 2438; 2437; 2436; 2435; 2434; 2433; 2432]
 [28144; 3381; 28127; 28146; 28111; 3382; 28112; 3384; 3369; 3360; 28143; 28145; 3379; 3365; 28152; 3370; 3377; 3362; 3380; 3383; 28164; 3375; 3378; 3368; 3374; 3367; 28151; 3364; 28150; 3372; 3359; 28155; 28149; 28135; 28169; 3376; 3363; 28125; 3350; 28170; 3371; 3361; 28147; 28157; 28126; 28178; 28175; 3356; 3357; 3373; 3366; 28156; 28171; 28134; 3355; 3358; 3354; 3353; 28124; 3349; 3348; 28123; 3347; 3333; 3324; 3346; 3345; 3343; 28154; 3337; 3335; 3326; 28162; 28122; 28117; 3352; 28119; 28172; 3351; 3321; 3330; 28167; 28115; 28114; 28118; 3339; 3320; 3329; 28165; 3342; 28116; 3341; 3331; 3322; 28121; 28113; 28120; 3336; 3328; 28159; 28138; 3319; 28148; 28168; 3340; 3327; 28166; 28129; 3318; 28132; 3344; 3334; 3325; 28153; 28158; 28137; 28163; 3386; 28785; 28174; 28782; 3338; 3332; 28160; 28783; 28131; 28142; 28136; 28786; 28130; 28128; 28177; 3323; 28161; 28133; 28176; 3385; 28173; 28139; 28784; 3387; 28780; 28781; 28141; 28140]
 [28140; 28780; 28781; 28782; 28783; 28784; 28785; 28786].
Definition enc_cuts_c129 := mkCut [2447; 2446; 2445; 2444; 2443; 2442; 2441; 2440]
 [28084; 28059; 28076; 3447; 3452; 3454; 3450; 28078; 28043; 3449; 3435; 28044; 3451; 3439; 3430; 28075; 3444; 3443; 28077; 28096; 3445; 3436; 28088; 28103; 3440; 3432; 3438; 3442; 3429; 28081; 28101; 28087; 28102; 28066; 3425; 3446; 3433; 28057; 3448; 3437; 28083; 3441; 3453; 3434; 28082; 28067; 3420; 3431; 28079; 28089; 3426; 28058; 28110; 28107; 3427; 3428; 3424; 28056; 3423; 3422; 28051; 28047; 28046; 28050; 28104; 3421; 3391; 3419; 3418; 3417; 3403; 3394; 28054; 28049; 3416; 3415; 3409; 3390; 28086; 28094; 3407; 3396; 3399; 28055; 3414; 3395; 3404; 3413; 3412; 28053; 28048; 3408; 3393; 3402; 28068; 28045; 3406; 28052; 3410; 3388; 28064; 3397; 28093; 3389; 28080; 28085; 28090; 28095; 3398; 3411; 3401; 28106; 3392; 3405; 28097; 28065; 28108; 28092; 28063; 28062; 28692; 28070; 3456; 28694; 28100; 28073; 3400; 28099; 28074; 28072; 28691; 28091; 28105; 28071; 3457; 28689; 28069; 28695; 28098; 28061; 28060; 28109; 28690; 3455; 28693]
 [28072; 28689; 28690; 28691; 28692; 28693; 28694; 28695].
Definition enc_cuts_c130 := mkCut [2455; 2454; 2453; 2452; 2451; 2450; 2449; 2448]
 [28008; 3521; 3523; 28028; 3524; 3509; 3500; 28010; 27976; 3522; 3518; 27975; 27991; 28007; 3512; 28009; 3511; 3501; 27990; 3508; 3504; 28014; 28011; 3499; 28042; 28039; 3514; 3507; 28015; 28021; 3513; 28016; 3517; 3519; 3515; 3506; 28020; 28035; 3498; 3505; 28019; 28034; 3510; 3502; 28013; 28033; 27999; 3520; 3516; 3503; 27989; 3497; 3494; 27988; 3489; 3490; 3488; 27986; 27981; 27987; 3496; 3493; 3487; 3473; 3464; 3486; 3485; 28018; 3477; 3475; 3466; 3483; 28026; 3484; 3465; 3474; 27998; 3495; 3492; 27983; 27979; 27978; 28036; 27982; 3491; 3482; 3481; 3462; 3471; 27985; 27980; 3478; 3472; 3463; 28024; 27995; 3470; 28031; 28006; 27977; 27984; 3480; 3467; 28025; 3458; 3476; 3459; 3468; 28023; 28037; 28003; 3479; 3460; 28012; 3469; 28032; 28000; 27996; 28017; 28022; 28027; 28038; 28713; 27994; 28001; 28712; 28029; 27997; 28040; 28002; 3526; 28715; 28716; 3527; 28710; 28005; 28004; 3461; 28030; 3525; 28714; 27993; 27992; 28041; 28711]
 [28004; 28710; 28711; 28712; 28713; 28714; 28715; 28716].
Definition enc_cuts_c131 := mkCut [2463; 2462; 2461; 2460; 2459; 2458; 2457; 2456]
 [27940; 3591; 3593; 27960; 27939; 27941; 3581; 3578; 27923; 3594; 3579; 3570; 3592; 3584; 3571; 27943; 3588; 27922; 27974; 3577; 3574; 27946; 27971; 27942; 27947; 27907; 27953; 27908; 3582; 3569; 3589; 3583; 3575; 27951; 27948; 3580; 3587; 3585; 3576; 27952; 27967; 3568; 27966; 27930; 3565; 3572; 27945; 27965; 27931; 3566; 3590; 3586; 3573; 3567; 3564; 3563; 3562; 27915; 27911; 27920; 3559; 27910; 27921; 27968; 3561; 3531; 3560; 3558; 27918; 27913; 3557; 3543; 27962; 27914; 3549; 3530; 27919; 3539; 3556; 3555; 3553; 3552; 27912; 3548; 3542; 27932; 3551; 3532; 3541; 3533; 27950; 27958; 3554; 3544; 3547; 3536; 3545; 27961; 27917; 27909; 27916; 3550; 3528; 27928; 3537; 3546; 3529; 27944; 3538; 27955; 27964; 27934; 27937; 27957; 27929; 27972; 3595; 27969; 3540; 27935; 3597; 28731; 27963; 27956; 27927; 27938; 27936; 3535; 27949; 27926; 27954; 27959; 3596; 28736; 27933; 27970; 28734; 28737; 28733; 3534; 27925; 27924; 27973; 28732; 28735]
 [27936; 28731; 28732; 28733; 28734; 28735; 28736; 28737].
Definition enc_cuts_c132 := mkCut [2471; 2470; 2469; 2468; 2467; 2466; 2465; 2464]
 [3661; 3663; 27872; 27892; 3664; 3662; 3658; 3649; 3640; 27874; 27839; 27840; 27880; 3660; 3657; 3656; 27871; 3654; 3653; 27855; 3647; 27879; 3643; 3652; 3639; 3659; 3645; 27883; 27898; 3655; 3646; 27884; 27899; 27862; 3635; 27873; 3648; 3644; 27878; 3650; 3642; 27877; 27863; 3651; 3641; 27875; 3636; 27885; 3638; 27897; 27853; 3630; 27854; 27906; 27903; 3637; 3634; 3633; 27852; 3629; 3632; 27900; 3628; 27850; 27845; 3626; 27851; 3631; 3610; 3625; 27882; 3617; 27890; 3623; 3622; 3621; 3611; 3602; 27844; 3618; 3603; 3612; 3627; 3613; 27895; 3604; 3624; 27847; 27849; 27841; 27848; 3620; 3598; 27843; 27846; 27842; 3619; 3600; 27860; 3609; 27864; 3614; 3616; 3599; 27876; 3601; 27894; 27857; 3615; 27888; 27859; 27870; 3608; 27887; 3607; 27889; 27901; 27867; 3606; 3605; 27881; 27858; 27856; 27905; 28753; 27886; 27865; 27891; 27902; 28758; 28755; 28754; 27893; 27861; 27904; 3665; 27866; 3666; 28757; 28756; 27896; 27869; 3667; 28752; 27868]
 [27868; 28752; 28753; 28754; 28755; 28756; 28757; 28758].
Definition enc_cuts_c133 := mkCut [2479; 2478; 2477; 2476; 2475; 2474; 2473; 2472]
 [27824; 3733; 3731; 27804; 27812; 3730; 3727; 3725; 27806; 27772; 27771; 3729; 3715; 3734; 3719; 3710; 3726; 3713; 27787; 27803; 3722; 3709; 27815; 27830; 27805; 3721; 3720; 3712; 3718; 3714; 27810; 27809; 27829; 27795; 27785; 3700; 3732; 3711; 27786; 27838; 27807; 3724; 27835; 3707; 3728; 3717; 27811; 3723; 3716; 3706; 27816; 27831; 27794; 3705; 27817; 3708; 3704; 27784; 3699; 3703; 3702; 27832; 3701; 3671; 3680; 27779; 27775; 27774; 27778; 3698; 27783; 3696; 3695; 27814; 3687; 3685; 3676; 27822; 3694; 3675; 3693; 3692; 27776; 3688; 3673; 3691; 3682; 27820; 27791; 3681; 3672; 27782; 27777; 3689; 3679; 27825; 27796; 3670; 3684; 27781; 27773; 3686; 3678; 3669; 27780; 27819; 27798; 3690; 3677; 3668; 27821; 27833; 27799; 27792; 3697; 3674; 3683; 27827; 27802; 27793; 27836; 27826; 3735; 28777; 27789; 27808; 27813; 27828; 27818; 27790; 27788; 27837; 28774; 27801; 27800; 3737; 28773; 27797; 28779; 27823; 3736; 27834; 28775; 28776; 28778]
 [27800; 28773; 28774; 28775; 28776; 28777; 28778; 28779].
Definition enc_cuts_c134 := mkCut [2487; 2486; 2485; 2484; 2483; 2482; 2481; 2480]
 [27756; 27744; 3803; 3801; 27736; 3800; 3796; 3783; 3797; 3795; 27738; 3802; 3798; 3804; 3789; 3780; 27735; 27737; 3791; 27719; 3788; 3784; 27742; 3794; 3787; 3793; 3786; 27743; 3781; 27739; 27749; 27718; 3790; 3782; 27703; 3799; 27704; 27748; 27763; 3778; 27770; 27767; 3777; 3774; 3792; 3779; 27741; 27727; 3776; 3773; 27761; 27717; 3770; 3785; 27747; 27762; 27716; 27726; 3775; 3772; 27711; 27764; 3771; 3750; 3741; 27707; 27706; 27710; 3769; 3768; 27715; 3766; 3767; 3744; 3753; 27759; 27714; 27709; 3765; 3763; 3762; 3761; 3751; 27708; 3758; 3742; 27713; 3752; 27746; 27754; 27705; 27712; 3760; 3738; 3757; 3746; 3755; 3747; 3743; 27753; 3764; 3754; 3745; 27758; 27721; 27752; 27723; 27734; 3756; 3748; 3739; 27751; 27765; 27731; 3759; 3749; 27728; 27757; 27725; 27730; 3740; 27740; 27760; 27745; 27750; 27755; 3807; 27724; 27733; 27722; 27720; 27769; 28683; 27766; 28685; 28684; 27732; 27729; 28688; 27768; 3805; 28686; 3806; 28687; 28682]
 [27732; 28682; 28683; 28684; 28685; 28686; 28687; 28688].
Definition enc_cuts_c135 := mkCut [2495; 2494; 2493; 2492; 2491; 2490; 2489; 2488]
 [27676; 27651; 27667; 27669; 27688; 3860; 3861; 3873; 3858; 3870; 3854; 3866; 3853; 27670; 3872; 3868; 3874; 3864; 3863; 3851; 27635; 3869; 3857; 27675; 3855; 27671; 27681; 3871; 27668; 27674; 3859; 3850; 27650; 27636; 3862; 3849; 27702; 27699; 3847; 27679; 27694; 3867; 3865; 3852; 27673; 27659; 3846; 3856; 27680; 27658; 3845; 27695; 3848; 3844; 27648; 3839; 27693; 27649; 3840; 3838; 27646; 3837; 3814; 27641; 27647; 3836; 3835; 27678; 3827; 3816; 27686; 3834; 3824; 3825; 3823; 3843; 3842; 3833; 27696; 3841; 3820; 3832; 3831; 3821; 3811; 3812; 27645; 27640; 3828; 3822; 27684; 27655; 3813; 27691; 27666; 27637; 27644; 3830; 3808; 27643; 27690; 27653; 3817; 27685; 27639; 27642; 3829; 3819; 3810; 27656; 27660; 27689; 27657; 27700; 3875; 28707; 27638; 3826; 3818; 27683; 27662; 3809; 27672; 27692; 27665; 27664; 27697; 27663; 3877; 28703; 3815; 27677; 27654; 27652; 27701; 28704; 27682; 27687; 27698; 28706; 27661; 28709; 3876; 28708; 28705]
 [27664; 28703; 28704; 28705; 28706; 28707; 28708; 28709].
Definition enc_cuts_c136 := mkCut [2503; 2502; 2501; 2500; 2499; 2498; 2497; 2496]
 [3942; 27602; 27608; 27583; 3941; 3944; 27599; 3934; 27620; 3933; 3943; 3938; 27601; 3931; 3930; 3921; 27603; 3927; 27607; 27613; 3928; 3924; 3940; 3936; 3923; 27600; 27568; 3932; 3929; 3920; 3937; 3935; 3926; 3922; 27582; 27634; 27606; 27631; 3917; 3919; 27605; 27625; 27581; 3910; 27591; 3916; 27612; 27627; 3918; 3914; 3913; 27567; 3939; 3925; 27611; 27590; 3915; 3912; 27575; 27571; 27628; 27574; 27626; 27580; 3911; 3881; 3890; 27570; 3909; 3908; 27579; 3906; 3905; 3907; 3893; 3884; 27623; 27610; 27618; 3904; 3894; 3897; 27622; 27585; 27578; 27573; 3899; 3880; 3889; 3903; 3902; 27572; 3901; 3882; 27577; 27569; 3896; 3888; 3879; 27576; 3900; 3878; 3887; 27588; 27604; 27624; 3886; 3891; 27615; 3895; 27621; 27594; 3885; 27609; 27614; 27619; 27593; 27630; 3946; 28729; 28726; 3898; 3883; 27617; 27629; 27595; 27589; 27597; 3947; 28724; 27632; 3945; 28728; 3892; 27592; 27616; 28727; 27587; 27598; 27596; 27586; 28730; 27584; 27633; 28725]
 [27596; 28724; 28725; 28726; 28727; 28728; 28729; 28730].
Definition enc_cuts_c137 := mkCut [2511; 2510; 2509; 2508; 2507; 2506; 2505; 2504]
 [4012; 4014; 27531; 4004; 27552; 27533; 4011; 4013; 27515; 4003; 4008; 3997; 27534; 4001; 27539; 27540; 4000; 3998; 4010; 4006; 27499; 27532; 3999; 4007; 3992; 4005; 3996; 3994; 27500; 4002; 4009; 3995; 3991; 27535; 27545; 3990; 27514; 27544; 27559; 3988; 3989; 27543; 27558; 27522; 3985; 3993; 27566; 27537; 27557; 27513; 3980; 27538; 27523; 3986; 27563; 3987; 3984; 3983; 3982; 27560; 27507; 27503; 27506; 27502; 27512; 3979; 3978; 3977; 3954; 27511; 27510; 27505; 3969; 3950; 3959; 3963; 3976; 3975; 3973; 27542; 3967; 27550; 3974; 3965; 27553; 3955; 3964; 3956; 3981; 3960; 27555; 3951; 27554; 3972; 27509; 27501; 3966; 3949; 27536; 27541; 27546; 3958; 27526; 27508; 3970; 3957; 27551; 4016; 28750; 3948; 27504; 3968; 3962; 27524; 3953; 27549; 27521; 27548; 27519; 27518; 27530; 3971; 3952; 3961; 27562; 27547; 27561; 27556; 27529; 27528; 27525; 28751; 28747; 27527; 4017; 28745; 27520; 27564; 4015; 28749; 27517; 27516; 27565; 28746; 28748]
 [27528; 28745; 28746; 28747; 28748; 28749; 28750; 28751].
Definition enc_cuts_c138 := mkCut [2519; 2518; 2517; 2516; 2515; 2514; 2513; 2512]
 [27464; 4082; 4083; 27463; 4074; 27484; 4081; 27447; 4084; 4069; 4060; 27465; 4068; 4064; 27470; 4078; 4067; 4073; 27472; 4077; 4080; 4076; 4063; 27466; 27471; 27431; 27432; 4072; 4059; 4079; 4065; 27475; 27490; 4071; 4061; 27446; 27498; 27495; 4057; 27467; 27477; 4075; 4066; 27476; 27454; 4055; 27491; 4058; 4054; 27444; 4049; 4070; 4062; 27469; 27455; 4056; 27489; 27445; 4050; 4048; 27443; 27442; 27437; 4046; 4045; 27474; 4037; 27482; 4044; 4025; 4034; 4026; 4035; 4047; 4033; 4024; 4053; 4043; 4052; 27439; 27435; 27438; 4039; 27434; 4029; 27485; 4020; 27492; 4051; 4042; 27441; 27433; 27440; 4040; 4027; 4018; 27452; 4030; 27487; 27436; 4021; 4036; 4019; 27468; 27473; 27478; 4028; 27458; 27483; 4086; 28771; 4038; 4032; 27456; 27480; 4023; 27486; 27449; 27481; 27453; 27496; 4085; 28770; 27451; 27450; 27448; 27497; 27462; 4041; 4031; 27479; 27457; 28772; 4022; 27488; 27461; 27494; 28769; 28768; 27493; 28767; 27460; 27459; 4087; 28766]
 [27460; 28766; 28767; 28768; 28769; 28770; 28771; 28772].
Definition enc_cuts_c139 := mkCut [2527; 2526; 2525; 2524; 2523; 2522; 2521; 2520]
 [4152; 27398; 27404; 4151; 4154; 27395; 4144; 27416; 27397; 4141; 4131; 27399; 4143; 4148; 4137; 27403; 27409; 4153; 4140; 27379; 4150; 4138; 27396; 4147; 4146; 4145; 4136; 27363; 4149; 4139; 4134; 27402; 4133; 4132; 4130; 27408; 27423; 4128; 27378; 27430; 27427; 4127; 4124; 4135; 27364; 4142; 4129; 27407; 27422; 27401; 27421; 27377; 27376; 4119; 27387; 4120; 4118; 27375; 4116; 27386; 4125; 27374; 27369; 4126; 4117; 4115; 27406; 4107; 27414; 4114; 4095; 4096; 4094; 4104; 4103; 4105; 4123; 4113; 4122; 27371; 27367; 27366; 27370; 27424; 4121; 4091; 27418; 27381; 4112; 27368; 4111; 4092; 27373; 27365; 4106; 4089; 4098; 4108; 4093; 4102; 27412; 27383; 27372; 4110; 4088; 4097; 27413; 4101; 27411; 27425; 4100; 27391; 27419; 27394; 4109; 4099; 27388; 27417; 27385; 27390; 4090; 27384; 27428; 27400; 27405; 27382; 4155; 27410; 27415; 27426; 28677; 27389; 28681; 27380; 27429; 28676; 28678; 27420; 27393; 27392; 4157; 28675; 4156; 28680; 28679]
 [27392; 28675; 28676; 28677; 28678; 28679; 28680; 28681].
Definition enc_cuts_c140 := mkCut [2535; 2534; 2533; 2532; 2531; 2530; 2529; 2528]
 [27330; 4224; 27311; 27336; 4220; 27295; 4219; 4205; 27348; 27327; 27329; 4210; 4208; 4211; 4216; 4203; 4222; 4223; 4218; 4214; 4201; 27331; 4207; 27335; 4204; 27341; 4221; 4213; 27328; 27296; 4209; 4200; 4217; 4202; 4215; 4206; 27340; 27355; 4198; 4212; 4199; 27333; 27353; 27309; 4190; 27339; 27318; 27354; 27310; 27362; 4195; 27334; 27359; 4197; 4194; 27308; 4189; 27319; 4188; 27307; 4196; 4187; 4173; 4164; 4193; 4192; 27303; 27299; 27302; 27298; 27356; 4191; 4170; 4161; 27350; 27313; 27306; 27351; 27301; 4179; 4160; 4169; 4186; 4185; 4183; 4182; 4181; 4162; 4171; 27300; 4178; 4172; 27320; 27338; 4177; 4166; 4175; 27344; 27349; 27346; 4184; 4174; 4165; 27305; 27297; 27304; 4180; 4167; 4158; 27316; 27315; 27326; 4176; 4159; 27332; 4168; 27322; 27343; 27352; 27337; 27314; 27312; 27361; 27342; 27347; 27321; 28702; 27358; 28699; 28698; 4226; 28701; 4163; 27325; 27324; 27345; 27357; 27323; 4227; 28696; 28697; 27317; 27360; 4225; 28700]
 [27324; 28696; 28697; 28698; 28699; 28700; 28701; 28702].
Definition enc_cuts_c141 := mkCut [2543; 2542; 2541; 2540; 2539; 2538; 2537; 2536]
 [27243; 27259; 27280; 27262; 27260; 4293; 4291; 27228; 27227; 27268; 4287; 4289; 4275; 4282; 4269; 27271; 27286; 4285; 4290; 4286; 4292; 4284; 4283; 4276; 4294; 4279; 4270; 27272; 27250; 27287; 4288; 4277; 27267; 4265; 27261; 4278; 4280; 4272; 4274; 27266; 4281; 4271; 27242; 27294; 27263; 27273; 4268; 27291; 27265; 27285; 27251; 4266; 4273; 4267; 4264; 27241; 27240; 4260; 4263; 4262; 27288; 4261; 4240; 4231; 27235; 27231; 27234; 4259; 4258; 27238; 27233; 4249; 4256; 4239; 27239; 4255; 4253; 4252; 27237; 27232; 4251; 4232; 4241; 4230; 4257; 4234; 27270; 4247; 4245; 27281; 4236; 27278; 4254; 4244; 4235; 27229; 27236; 4250; 4228; 4237; 27248; 4243; 27282; 27245; 27283; 4248; 4242; 27276; 4233; 27247; 27277; 27249; 27292; 4295; 28721; 27258; 27252; 27230; 4246; 4229; 4238; 27254; 27275; 27289; 27255; 27264; 27269; 27246; 27244; 27274; 27279; 4296; 28722; 27253; 28723; 27293; 28718; 27290; 28720; 28719; 27284; 27257; 27256; 4297; 28717]
 [27256; 28717; 28718; 28719; 28720; 28721; 28722; 28723].
Definition enc_cuts_c142 := mkCut [2551; 2550; 2549; 2548; 2547; 2546; 2545; 2544]
 [27192; 4361; 4362; 27194; 27160; 4364; 27175; 27159; 4349; 4340; 27191; 4354; 4352; 4339; 27212; 4358; 4347; 27199; 4363; 27193; 4348; 4351; 4341; 27195; 27205; 4344; 27198; 27174; 27226; 27223; 27200; 4350; 4359; 4353; 4345; 27203; 4360; 4356; 4343; 4357; 4342; 27197; 27183; 27217; 27173; 4330; 4336; 4337; 4355; 4346; 27204; 27219; 27182; 4335; 4338; 4334; 4333; 4332; 27220; 27167; 27163; 27162; 27166; 27218; 4331; 4310; 27172; 4329; 4328; 4326; 4325; 4323; 4327; 4322; 27164; 27202; 27210; 27171; 27169; 4301; 4324; 4314; 27161; 4316; 4299; 4308; 27168; 4318; 4303; 4312; 4317; 4306; 4315; 27208; 4305; 4304; 27170; 27165; 4320; 4307; 27209; 4319; 4309; 4300; 27196; 27201; 27206; 27211; 27213; 27186; 4366; 27181; 28743; 27184; 4298; 27180; 27224; 4313; 27214; 27177; 4365; 28742; 27215; 27179; 27190; 27178; 27176; 27225; 4321; 4302; 27216; 4311; 27207; 27222; 28740; 27185; 28744; 27189; 27188; 27221; 27187; 4367; 28738; 28739; 28741]
 [27188; 28738; 28739; 28740; 28741; 28742; 28743; 28744].
Definition enc_cuts_c143 := mkCut [2559; 2558; 2557; 2556; 2555; 2554; 2553; 2552]
 [27126; 27107; 4434; 27132; 27091; 4429; 4415; 4430; 4426; 4413; 27144; 27123; 27125; 4420; 4421; 4418; 4431; 4433; 4414; 4432; 4428; 4411; 4424; 4423; 4417; 27131; 27127; 27137; 27124; 4419; 27092; 4422; 4409; 27130; 27135; 27150; 4427; 4425; 4410; 4412; 27129; 27115; 4406; 27106; 27158; 27155; 4407; 27149; 27105; 4400; 4416; 27136; 27114; 4405; 27151; 4408; 4404; 4403; 27104; 4399; 4402; 4398; 27103; 27102; 4397; 4383; 4374; 4396; 4395; 27134; 4393; 27142; 4394; 4384; 4387; 4385; 4376; 4375; 27097; 27099; 27095; 27094; 27098; 4389; 4370; 4379; 27152; 4401; 4371; 27146; 27109; 4392; 4391; 4372; 27096; 4388; 4373; 4382; 27116; 27140; 27111; 4381; 27145; 4380; 27147; 27122; 27101; 27093; 4386; 4369; 4378; 27100; 27139; 4390; 4368; 27112; 27118; 4377; 27141; 27128; 27133; 27110; 27108; 27157; 27148; 27121; 27120; 27138; 27117; 28765; 27143; 27154; 28762; 28761; 4436; 28764; 27113; 27156; 4435; 28763; 27153; 28760; 27119; 4437; 28759]
 [27120; 28759; 28760; 28761; 28762; 28763; 28764; 28765].
Definition enc_cuts_c144 := mkCut [2311; 2310; 2309; 2308; 2307; 2306; 2305; 2304]
 [13461; 13464; 13462; 18354; 18319; 18335; 13459; 13445; 18360; 13460; 18351; 18372; 13456; 18353; 13450; 13454; 13453; 13463; 13458; 13447; 18359; 13443; 13451; 13441; 18355; 18365; 13448; 13444; 18352; 18358; 13449; 18320; 13452; 13439; 18363; 18378; 13440; 18334; 18386; 18383; 13437; 13457; 13455; 13446; 18364; 18379; 13438; 18342; 13435; 13434; 18332; 13429; 13442; 18357; 18343; 13436; 13433; 13432; 18380; 13431; 13401; 13410; 18377; 18333; 13430; 13428; 18331; 13427; 18330; 18325; 13413; 18374; 18375; 13404; 18337; 13426; 13425; 13423; 13422; 18362; 18370; 13424; 13405; 18324; 13418; 13414; 18329; 18321; 18328; 13420; 13398; 13412; 13421; 13402; 13411; 13417; 13415; 18327; 18323; 18322; 13416; 13399; 18326; 13419; 13400; 18340; 18356; 18376; 18361; 13409; 18373; 18344; 13408; 18346; 18367; 13407; 13406; 13403; 18369; 18381; 18349; 18347; 13467; 28300; 18341; 18384; 13465; 28304; 18366; 18371; 13466; 28305; 18345; 28306; 18382; 28302; 18368; 28303; 18339; 18338; 18336; 18385; 28301; 18350; 18348]
 [18348; 28300; 28301; 28302; 28303; 28304; 28305; 28306].
Definition enc_cuts_c145 := mkCut [2319; 2318; 2317; 2316; 2315; 2314; 2313; 2312]
 [18304; 13535; 18284; 13520; 13534; 13532; 13533; 13529; 18283; 18285; 13525; 13524; 13518; 18267; 13519; 13515; 18290; 18292; 13531; 13528; 13526; 13522; 13521; 18286; 18252; 18291; 13527; 13512; 18287; 18297; 18251; 13530; 13516; 13523; 13510; 18295; 18310; 13517; 13514; 13513; 18289; 18275; 13507; 13511; 18309; 18266; 18318; 18315; 13508; 18296; 18274; 13506; 18311; 13509; 13505; 13504; 13503; 18259; 18255; 18312; 13502; 13481; 18258; 18265; 13501; 18254; 18264; 13500; 13499; 18262; 13498; 13497; 13484; 18307; 13475; 13496; 13494; 18294; 13488; 13493; 13492; 13473; 13482; 18256; 13489; 13474; 18302; 18257; 13490; 13480; 13471; 18263; 13495; 13485; 13476; 18261; 18253; 18260; 13491; 13478; 18301; 13487; 13479; 18299; 18313; 18279; 13470; 18288; 18308; 13538; 18293; 18281; 28292; 13469; 18272; 13486; 18305; 18273; 18316; 18278; 13483; 18276; 18300; 18271; 18282; 18270; 18280; 13477; 18298; 18277; 28298; 18303; 18314; 28295; 28294; 13537; 28297; 13472; 18306; 13536; 28296; 18269; 18268; 18317; 28293]
 [18280; 28292; 28293; 28294; 28295; 28296; 28297; 28298].
Definition enc_cuts_c146 := mkCut [2327; 2326; 2325; 2324; 2323; 2322; 2321; 2320]
 [18218; 18183; 13604; 18216; 18184; 18199; 13606; 13591; 13582; 13603; 18236; 18215; 13596; 13594; 18217; 13590; 13581; 13593; 13583; 18198; 18250; 18219; 13600; 13589; 18223; 18229; 13605; 13586; 18222; 18247; 13601; 18224; 13587; 13592; 18227; 18242; 13599; 13584; 13602; 13598; 13585; 13597; 13579; 18221; 18207; 13578; 18241; 18197; 13572; 13595; 13588; 18228; 18243; 18206; 13577; 13580; 13576; 13575; 18196; 13571; 13574; 18191; 18187; 18190; 18244; 18186; 13570; 18195; 13569; 13546; 18194; 13568; 18189; 13561; 13551; 13567; 18226; 18234; 13566; 13547; 13573; 13552; 13543; 13559; 13548; 13542; 13557; 18237; 13556; 13555; 18239; 18238; 18201; 13565; 13564; 18188; 18193; 18185; 18192; 13562; 13540; 13549; 13560; 13554; 13545; 18232; 18233; 18208; 18203; 18205; 18204; 18248; 13607; 18214; 13558; 13541; 13550; 18220; 18225; 18230; 18235; 18202; 18210; 13608; 28289; 13563; 13553; 18231; 18245; 18211; 18209; 28290; 18246; 28286; 13544; 18240; 13609; 18213; 28284; 18212; 18200; 18249; 28285; 28288; 28287]
 [18212; 28284; 28285; 28286; 28287; 28288; 28289; 28290].
Definition enc_cuts_c147 := mkCut [2335; 2334; 2333; 2332; 2331; 2330; 2329; 2328]
 [13674; 18148; 18131; 13677; 13662; 18150; 13675; 18115; 18116; 13653; 18156; 13673; 13670; 13672; 13658; 13669; 18168; 13668; 13671; 18147; 18149; 13663; 13655; 13667; 13666; 13660; 13659; 18160; 18175; 13656; 13665; 13652; 18159; 18138; 18153; 18173; 18129; 13643; 18174; 18155; 13664; 13654; 18130; 18182; 18151; 18161; 13651; 13648; 13676; 13661; 13657; 18154; 18179; 18139; 13649; 13650; 13647; 18128; 13642; 13641; 18126; 18121; 13639; 13638; 18158; 18166; 13646; 13645; 18176; 13644; 13623; 13614; 13636; 13635; 18120; 13631; 13616; 13625; 18125; 18117; 13634; 13624; 13615; 13630; 13619; 13628; 18164; 18135; 13640; 13626; 18171; 18146; 13617; 18127; 18123; 18119; 18118; 13629; 13621; 13612; 18163; 18122; 13632; 13613; 18152; 18172; 18145; 18144; 13622; 18169; 18140; 18142; 13637; 13627; 13618; 18157; 18162; 18167; 18178; 28278; 13679; 28281; 18141; 28282; 18134; 28279; 18124; 13633; 13620; 13611; 18165; 18137; 18177; 18143; 13680; 28276; 18136; 18180; 18170; 18133; 18132; 18181; 28277; 13678; 28280]
 [18144; 28276; 28277; 28278; 28279; 28280; 28281; 28282].
Definition enc_cuts_c148 := mkCut [2343; 2342; 2341; 2340; 2339; 2338; 2337; 2336]
 [18080; 18088; 13744; 13741; 13745; 18063; 18100; 18079; 18081; 13732; 13734; 13726; 13747; 13728; 18086; 13735; 13740; 13739; 13748; 18082; 18047; 18048; 13746; 13738; 13742; 13737; 13731; 18087; 13736; 13730; 13733; 13724; 18092; 18107; 13743; 13729; 13727; 13725; 18062; 18083; 18093; 13722; 18114; 13723; 18085; 18105; 18091; 18106; 18070; 18071; 13720; 18061; 13719; 13714; 18111; 13721; 13718; 18060; 13713; 13717; 13712; 13711; 18058; 18053; 13697; 13710; 18059; 13716; 18055; 18108; 18051; 18050; 18054; 13703; 13693; 13684; 13709; 13707; 18090; 18098; 13708; 13689; 13701; 13699; 18101; 13690; 13698; 13688; 13715; 13685; 18102; 18065; 13706; 13705; 18052; 13702; 13696; 13687; 18057; 18072; 18049; 13700; 13692; 18074; 18056; 13704; 18096; 18067; 13691; 18097; 18069; 13682; 18068; 18112; 13749; 28272; 13695; 18095; 18109; 13694; 18075; 18103; 18078; 13683; 18084; 18089; 18066; 18064; 18113; 28269; 18094; 18099; 13750; 28273; 18073; 18110; 28271; 28270; 28274; 13686; 18104; 18077; 18076; 13751; 28268]
 [18076; 28268; 28269; 28270; 28271; 28272; 28273; 28274].
Definition enc_cuts_c149 := mkCut [2351; 2350; 2349; 2348; 2347; 2346; 2345; 2344]
 [18020; 13818; 18011; 18013; 13806; 13805; 18032; 13816; 18014; 13819; 13817; 13796; 13813; 18015; 17979; 13814; 13800; 13815; 18012; 13812; 13810; 13797; 17980; 13807; 13794; 18023; 18038; 13811; 13798; 13803; 13799; 18018; 13804; 13795; 17994; 18017; 18003; 13791; 18037; 17993; 13785; 17995; 18046; 18043; 13792; 13809; 13808; 13801; 18024; 18039; 18002; 13790; 13802; 18019; 18025; 13793; 13789; 17992; 13788; 13787; 18040; 13786; 13765; 13784; 13783; 17987; 17983; 13756; 13781; 13782; 13768; 13759; 18034; 17997; 18035; 13780; 18022; 18030; 13772; 17986; 13778; 13777; 17989; 17984; 13773; 13758; 13767; 17991; 13779; 13769; 17990; 17985; 13774; 13755; 13764; 18004; 17981; 17988; 13775; 13753; 18000; 13762; 18029; 17982; 13771; 13763; 13754; 18016; 13760; 18021; 13776; 13757; 18036; 13766; 18027; 18041; 18007; 13822; 28260; 18009; 13770; 18028; 17999; 18010; 17998; 18033; 18001; 18044; 13820; 28264; 17996; 18045; 28261; 18008; 18006; 13761; 18026; 18005; 28266; 18031; 13821; 18042; 28263; 28265; 28262]
 [18008; 28260; 28261; 28262; 28263; 28264; 28265; 28266].
Definition enc_cuts_c150 := mkCut [2359; 2358; 2357; 2356; 2355; 2354; 2353; 2352]
 [17944; 17946; 17911; 13885; 17912; 17952; 13883; 13886; 13888; 13889; 13882; 13869; 17964; 13884; 13890; 13875; 13866; 13881; 13887; 13871; 17943; 17927; 13880; 13873; 17951; 13879; 13872; 17956; 17945; 13877; 13867; 17926; 17947; 17978; 13876; 13868; 13878; 13865; 17955; 17970; 17934; 13861; 17949; 17969; 17925; 13856; 17957; 17971; 13864; 13874; 13870; 17950; 17975; 17935; 13863; 13860; 17924; 13855; 13854; 13852; 17922; 17917; 17923; 13862; 13851; 17954; 13843; 13841; 13832; 13859; 13858; 17972; 13857; 13836; 13827; 13849; 13848; 17916; 13844; 13838; 13829; 17921; 13847; 13828; 13853; 13830; 13839; 17967; 17919; 17915; 17914; 17918; 17962; 13850; 13840; 13831; 17913; 13842; 13825; 17920; 13846; 13833; 13824; 13834; 17961; 17966; 17929; 17960; 17931; 17942; 13837; 17959; 17973; 17939; 13845; 13826; 17948; 17968; 17941; 13893; 13835; 17936; 17965; 17938; 17933; 17953; 17958; 17963; 13892; 17974; 28254; 28255; 17937; 28258; 17930; 17940; 28257; 17932; 17976; 13891; 28256; 17928; 17977; 28253; 28252]
 [17940; 28252; 28253; 28254; 28255; 28256; 28257; 28258].
Definition enc_cuts_c151 := mkCut [2367; 2366; 2365; 2364; 2363; 2362; 2361; 2360]
 [17876; 17884; 13957; 13954; 13958; 13953; 13940; 17896; 13952; 13960; 17878; 17843; 13956; 17844; 13959; 13955; 13961; 13946; 13937; 17859; 17875; 13949; 13936; 13951; 13950; 13943; 17888; 17903; 13944; 17883; 17877; 13947; 13948; 13938; 17858; 17910; 13945; 13941; 17882; 17907; 13934; 13939; 17881; 17901; 17867; 17857; 13927; 17879; 17889; 13933; 13935; 13931; 13930; 13942; 17887; 17902; 17866; 17856; 13926; 13925; 17854; 17855; 13924; 13901; 13923; 13922; 13932; 13929; 17904; 13928; 13907; 17849; 13910; 17899; 17886; 13914; 13912; 13903; 17894; 13921; 13902; 13920; 13919; 13918; 13908; 13899; 17848; 13915; 13909; 17892; 13900; 17853; 17845; 17852; 13917; 13895; 17863; 17874; 13904; 17851; 17847; 17846; 13913; 13905; 13896; 17850; 13916; 13906; 17897; 17870; 17868; 13897; 17880; 17900; 17873; 17872; 17885; 17862; 17890; 13898; 17898; 17861; 17860; 17909; 13911; 17895; 13963; 17906; 28246; 28247; 28249; 17891; 17869; 28250; 17893; 17905; 28245; 17865; 17871; 13964; 28244; 17864; 17908; 13962; 28248]
 [17872; 28244; 28245; 28246; 28247; 28248; 28249; 28250].
Definition enc_cuts_c152 := mkCut [2375; 2374; 2373; 2372; 2371; 2370; 2369; 2368]
 [14030; 17808; 17810; 17776; 17775; 17816; 14025; 14027; 14013; 14028; 17807; 14020; 14022; 14021; 14024; 14011; 14031; 17809; 17828; 14023; 14014; 14029; 14007; 17791; 14018; 14010; 17813; 14019; 14009; 17811; 17819; 17834; 14026; 14015; 17815; 17821; 14016; 14012; 17814; 17799; 14004; 14032; 14017; 14008; 17820; 17835; 17790; 17842; 17798; 14003; 14006; 17839; 14005; 14002; 17788; 13997; 14001; 14000; 17783; 17836; 13999; 13969; 17779; 17778; 17782; 13978; 17833; 17789; 13998; 13996; 17786; 17787; 17781; 13987; 13977; 13968; 13994; 13993; 17818; 17826; 13985; 13974; 13983; 17829; 13992; 13973; 13982; 13991; 13990; 17780; 17785; 17777; 17784; 13988; 13975; 13966; 13984; 13967; 13976; 17802; 17812; 17796; 13989; 13979; 13970; 17832; 17823; 13986; 13971; 17805; 17825; 17797; 17840; 13980; 17800; 17824; 17795; 17817; 17794; 17822; 17801; 28242; 17827; 17838; 28239; 14034; 28241; 13995; 13972; 13981; 17830; 17793; 14033; 17831; 28238; 28240; 17806; 17804; 17792; 17841; 17837; 17803; 14035; 28236; 28237]
 [17804; 28236; 28237; 28238; 28239; 28240; 28241; 28242].
Definition enc_cuts_c153 := mkCut [2383; 2382; 2381; 2380; 2379; 2378; 2377; 2376]
 [17740; 17748; 14096; 14099; 17742; 17708; 17707; 14098; 14084; 14101; 14095; 14102; 14082; 17760; 14094; 14100; 14097; 14103; 14088; 14079; 17739; 14091; 14078; 14093; 14092; 14085; 14086; 17752; 17751; 17730; 14074; 17766; 17767; 17741; 14090; 14089; 14080; 17743; 17722; 14081; 14087; 17745; 17765; 14083; 17746; 17731; 14075; 17721; 14069; 17723; 17774; 17771; 14076; 17747; 17753; 14077; 14073; 17720; 14068; 14067; 14066; 17718; 17713; 17719; 14065; 14052; 14064; 17750; 14056; 14045; 14054; 17758; 14063; 14044; 14053; 14043; 14072; 14062; 14071; 17768; 17715; 17711; 17714; 14058; 17710; 14039; 14048; 17761; 14070; 14061; 17712; 14060; 14041; 14049; 17763; 14040; 17717; 17709; 17716; 14055; 14047; 14038; 17734; 14059; 14037; 17728; 14046; 17762; 17725; 14050; 17755; 17744; 17764; 17749; 17754; 17759; 17770; 17733; 28230; 14057; 14042; 17757; 17769; 17735; 14106; 14051; 17756; 28231; 17732; 28234; 17727; 17726; 17737; 28228; 17729; 17772; 14104; 28232; 17738; 17736; 14105; 28233; 17724; 17773; 28229]
 [17736; 28228; 28229; 28230; 28231; 28232; 28233; 28234].
Definition enc_cuts_c154 := mkCut [2391; 2390; 2389; 2388; 2387; 2386; 2385; 2384]
 [17655; 14174; 14172; 14171; 17672; 14159; 14150; 17674; 17639; 17640; 14173; 17692; 14168; 17671; 14164; 14157; 17679; 17673; 14161; 14151; 17675; 14158; 17654; 17706; 14162; 14149; 14154; 17678; 17703; 17685; 17680; 14170; 14167; 14165; 14166; 14153; 14147; 14160; 14169; 14155; 17683; 17698; 14152; 17677; 17697; 17653; 14140; 17663; 14146; 14163; 14156; 17684; 17699; 14148; 14144; 14143; 17652; 14139; 14138; 17651; 14136; 14135; 17682; 17690; 14127; 14125; 14116; 17662; 14145; 14142; 17647; 17643; 17700; 14141; 14111; 14120; 17646; 14137; 14123; 17694; 14114; 17657; 17695; 14133; 17642; 14134; 14124; 14115; 14132; 14131; 14121; 17644; 17649; 17641; 14126; 17648; 14128; 14113; 14122; 14112; 14109; 17688; 17659; 17670; 14118; 17687; 17650; 17645; 14130; 14117; 14129; 14110; 14119; 17664; 17676; 17681; 17658; 17686; 17691; 17665; 28226; 17702; 28222; 17656; 17705; 17696; 28223; 17669; 17668; 14108; 17660; 17689; 17701; 17667; 28221; 14177; 28220; 17693; 17661; 17704; 17666; 14176; 28225; 14175; 28224]
 [17668; 28220; 28221; 28222; 28223; 28224; 28225; 28226].
Definition enc_cuts_c155 := mkCut [2399; 2398; 2397; 2396; 2395; 2394; 2393; 2392]
 [14245; 17587; 17606; 17571; 14242; 14243; 17604; 14230; 14221; 17572; 17612; 14240; 14226; 14241; 14238; 17624; 14239; 14244; 14237; 14224; 14236; 17603; 14235; 14228; 14234; 14227; 17616; 17631; 17611; 14233; 14220; 17615; 17594; 14216; 17630; 17605; 14229; 14232; 14231; 14223; 14222; 17607; 17617; 14219; 17609; 17586; 17638; 17629; 14225; 17610; 17635; 14218; 17595; 17585; 14211; 14217; 14215; 14214; 17584; 14210; 14213; 17579; 17575; 17578; 17632; 14212; 14182; 14209; 17582; 14208; 17577; 14200; 14185; 14194; 17626; 17589; 14207; 14206; 14204; 14203; 14202; 17576; 17614; 14198; 14187; 14196; 17581; 17622; 17573; 17580; 14201; 14199; 14184; 14193; 17620; 17591; 14192; 14183; 14190; 17625; 17583; 14205; 14195; 14186; 14188; 17621; 17593; 14179; 17596; 14181; 17592; 17636; 14246; 28216; 14191; 17627; 17602; 17574; 14197; 14180; 17608; 17613; 17590; 17588; 17637; 17618; 17623; 17634; 28215; 17628; 17601; 17600; 14189; 28214; 17619; 17597; 17633; 28218; 28213; 17599; 17598; 14247; 28217; 14248; 28212]
 [17600; 28212; 28213; 28214; 28215; 28216; 28217; 28218].
Definition enc_cuts_c156 := mkCut [2407; 2406; 2405; 2404; 2403; 2402; 2401; 2400]
 [14315; 14316; 14313; 17556; 17535; 17519; 17537; 17544; 14302; 14303; 17538; 17536; 14309; 14300; 17503; 14311; 14296; 14307; 17504; 14294; 14304; 14301; 14292; 14291; 17541; 14297; 17547; 17562; 17561; 14312; 14308; 14295; 17517; 14282; 17542; 17527; 14314; 14293; 17539; 14288; 14310; 17518; 14306; 14299; 14305; 14298; 17570; 17567; 14289; 17543; 17548; 17526; 14287; 17563; 17549; 14290; 14286; 17516; 14281; 14280; 14278; 14279; 17514; 14277; 14256; 17509; 14265; 17515; 17546; 14269; 17554; 14267; 14276; 14266; 14258; 14257; 14285; 14275; 14284; 17564; 14283; 14274; 17508; 17513; 17505; 14253; 17558; 17521; 14273; 14263; 14254; 17511; 14270; 17507; 17506; 14268; 14251; 17510; 14271; 14261; 17557; 14255; 14264; 17528; 17552; 17523; 14262; 17559; 17534; 14252; 17540; 17545; 17550; 17555; 17522; 17520; 17569; 17560; 17533; 14260; 17551; 17530; 14318; 17529; 28210; 17532; 28209; 17512; 14272; 14259; 17553; 17565; 17531; 14319; 17525; 28205; 28204; 14250; 17524; 17568; 14317; 28208; 17566; 28207; 28206]
 [17532; 28204; 28205; 28206; 28207; 28208; 28209; 28210].
Definition enc_cuts_c157 := mkCut [2415; 2414; 2413; 2412; 2411; 2410; 2409; 2408]
 [17468; 14386; 14385; 17488; 14387; 14384; 14372; 14363; 14381; 17476; 14380; 14378; 17470; 17435; 14382; 14368; 17467; 17469; 14374; 14364; 17450; 14373; 14365; 17471; 14371; 14367; 17474; 17451; 17502; 17499; 14383; 14379; 14366; 14360; 17436; 14375; 14362; 17473; 17493; 17449; 17479; 17494; 14353; 17459; 14377; 14370; 17475; 17481; 14376; 14369; 17480; 17495; 14361; 14357; 17448; 14352; 14351; 17447; 14349; 17446; 17441; 17458; 14358; 14359; 14356; 14348; 14346; 17478; 17486; 14350; 14336; 14327; 14355; 17496; 14354; 14333; 14324; 14345; 17440; 17445; 14344; 14325; 14334; 17490; 17453; 17443; 17439; 17442; 17437; 17444; 14342; 14332; 14323; 14343; 14330; 14321; 17456; 17491; 14347; 14328; 14337; 14340; 14329; 14338; 17489; 17438; 14339; 14331; 14322; 17462; 17483; 17472; 17492; 17477; 17482; 17487; 14389; 28201; 17498; 28198; 14341; 14335; 17460; 14326; 17465; 17484; 17455; 17454; 17466; 17464; 28199; 17452; 17501; 17461; 28202; 17485; 17497; 28197; 17463; 17457; 17500; 14388; 28200; 14390; 28196]
 [17464; 28196; 28197; 28198; 28199; 28200; 28201; 28202].
Definition enc_cuts_c158 := mkCut [2423; 2422; 2421; 2420; 2419; 2418; 2417; 2416]
 [17402; 17408; 17399; 14456; 14457; 14448; 14447; 17420; 14452; 17383; 14455; 14441; 17407; 17401; 14444; 14445; 14435; 14458; 17367; 14454; 14450; 14437; 14442; 14438; 14453; 17400; 14451; 14436; 14443; 14434; 17382; 17434; 17368; 14446; 14433; 17405; 17425; 14449; 14440; 17412; 17427; 17406; 17391; 17431; 14431; 17381; 14439; 17411; 17426; 17390; 14429; 14424; 17403; 17413; 14430; 14432; 14428; 17380; 14423; 14422; 14421; 17378; 17373; 14407; 14398; 14420; 14419; 17410; 14411; 14409; 17418; 14400; 14427; 14426; 17428; 14425; 14395; 17375; 17371; 17370; 14404; 17423; 17374; 14417; 14416; 17377; 17369; 17376; 14414; 14401; 17372; 14415; 14405; 14412; 14397; 17417; 14413; 14394; 14403; 17421; 17389; 14410; 14393; 17404; 14392; 17388; 17432; 14402; 17415; 17429; 17394; 17395; 17379; 14418; 14399; 14408; 17409; 17414; 17393; 17419; 17430; 28190; 14460; 28193; 17422; 17385; 14459; 28192; 14406; 17416; 28191; 17392; 28194; 17387; 17386; 17384; 17433; 28189; 17398; 14396; 17424; 14461; 28188; 17397; 17396]
 [17396; 28188; 28189; 28190; 28191; 28192; 28193; 28194].
Definition enc_cuts_c159 := mkCut [2431; 2430; 2429; 2428; 2427; 2426; 2425; 2424]
 [2848; 2842; 2949; 2948; 2851; 2940; 2939; 2830; 2867; 2849; 2936; 2944; 2947; 2950; 2933; 2937; 2927; 2847; 2843; 2837; 2934; 2930; 2883; 2850; 2844; 2945; 2931; 2946; 2943; 2928; 2941; 2932; 2882; 2938; 2925; 2845; 2859; 2922; 2935; 2926; 2868; 2825; 2838; 2823; 2816; 2819; 2924; 2839; 2860; 2824; 2921; 2942; 2929; 2923; 2869; 2916; 2920; 2870; 2915; 2914; 2912; 2872; 2871; 2877; 2919; 2918; 2913; 2899; 2890; 2822; 2917; 2896; 2887; 2828; 2827; 2875; 2879; 2880; 2876; 2905; 2886; 2895; 2865; 2911; 2840; 2832; 2910; 2903; 2891; 2900; 2909; 2908; 2873; 2881; 2902; 2894; 2885; 2846; 2874; 2906; 2893; 2884; 2862; 2878; 2892; 2901; 2829; 2856; 2841; 2904; 2889; 2833; 2898; 2858; 2834; 2863; 2852; 2864; 2866; 2817; 2907; 2888; 2826; 2897; 2835; 2821; 2855; 2953; 28180; 2861; 2818; 2951; 28184; 2836; 2857; 28186; 2831; 2820; 2952; 28185; 28183; 28182; 2853; 2854; 28181]
 [2854; 28180; 28181; 28182; 28183; 28184; 28185; 28186].
Definition enc_cuts : list cut := [enc_cuts_c0; enc_cuts_c1; enc_cuts_c2; enc_cuts_c3; enc_cuts_c4; enc_cuts_c5; enc_cuts_c6; enc_cuts_c7; enc_cuts_c8; enc_cuts_c9; enc_cuts_c10; enc_cuts_c11; enc_cuts_c12; enc_cuts_c13; enc_cuts_c14; enc_cuts_c15; enc_cuts_c16; enc_cuts_c17; enc_cuts_c18; enc_cuts_c19; enc_cuts_c20; enc_cuts_c21; enc_cuts_c22; enc_cuts_c23; enc_cuts_c24; enc_cuts_c25; enc_cuts_c26; enc_cuts_c27; enc_cuts_c28; enc_cuts_c29; enc_cuts_c30; enc_cuts_c31; enc_cuts_c32; enc_cuts_c33; enc_cuts_c34; enc_cuts_c35; enc_cuts_c36; enc_cuts_c37; enc_cuts_c38; enc_cuts_c39; enc_cuts_c40; enc_cuts_c41; enc_cuts_c42; enc_cuts_c43; enc_cuts_c44; enc_cuts_c45; enc_cuts_c46; enc_cuts_c47; enc_cuts_c48; enc_cuts_c49; enc_cuts_c50; enc_cuts_c51; enc_cuts_c52; enc_cuts_c53; enc_cuts_c54; enc_cuts_c55; enc_cuts_c56; enc_cuts_c57; enc_cuts_c58; enc_cuts_c59; enc_cuts_c60; enc_cuts_c61; enc_cuts_c62; enc_cuts_c63; enc_cuts_c64; enc_cuts_c65; enc_cuts_c66; enc_cuts_c67; enc_cuts_c68; enc_cuts_c69; enc_cuts_c70; enc_cuts_c71; enc_cuts_c72; enc_cuts_c73; enc_cuts_c74; enc_cuts_c75; enc_cuts_c76; enc_cuts_c77; enc_cuts_c78; enc_cuts_c79; enc_cuts_c80; enc_cuts_c81; enc_cuts_c82; enc_cuts_c83; enc_cuts_c84; enc_cuts_c85; enc_cuts_c86; enc_cuts_c87; enc_cuts_c88; enc_cuts_c89; enc_cuts_c90; enc_cuts_c91; enc_cuts_c92; enc_cuts_c93; enc_cuts_c94; enc_cuts_c95; enc_cuts_c96; enc_cuts_c97; enc_cuts_c98; enc_cuts_c99; enc_cuts_c100; enc_cuts_c101; enc_cuts_c102; enc_cuts_c103; enc_cuts_c104; enc_cuts_c105; enc_cuts_c106; enc_cuts_c107; enc_cuts_c108; enc_cuts_c109; enc_cuts_c110; enc_cuts_c111; enc_cuts_c112; enc_cuts_c113; enc_cuts_c114; enc_cuts_c115; enc_cuts_c116; enc_cuts_c117; enc_cuts_c118; enc_cuts_c119; enc_cuts_c120; enc_cuts_c121; enc_cuts_c122; enc_cuts_c123; enc_cuts_c124; enc_cuts_c125; enc_cuts_c126; enc_cuts_c127; enc_cuts_c128; enc_cuts_c129; enc_cuts_c130; enc_cuts_c131; enc_cuts_c132; enc_cuts_c133; enc_cuts_c134; enc_cuts_c135; enc_cuts_c136; enc_cuts_c137; enc_cuts_c138; enc_cuts_c139; enc_cuts_c140; enc_cuts_c141; enc_cuts_c142; enc_cuts_c143; enc_cuts_c144; enc_cuts_c145; enc_cuts_c146; enc_cuts_c147; enc_cuts_c148; enc_cuts_c149; enc_cuts_c150; enc_cuts_c151; enc_cuts_c152; enc_cuts_c153; enc_cuts_c154; enc_cuts_c155; enc_cuts_c156; enc_cuts_c157; enc_cuts_c158; enc_cuts_c159].
