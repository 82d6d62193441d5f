-Q theories Verif
theories/Lang.v
theories/Poly.v
theories/Kernel.v
theories/Src_e221_3.v
theories/Src_e222_117.v
theories/Src_e251_9.v
theories/Src_e255_19.v
theories/Src_e382_105.v
theories/Src_e383_187.v
theories/Src_e414_17.v
theories/Src_e511_187.v
theories/Src_e521_1.v
theories/Src_edwards.v
theories/Src_curves.v
theories/Quick.v
theories/Fields.v
theories/Kmore.v
theories/Kfacts.v
theories/Ops.v
theories/Words.v
theories/Codec.v
theories/Normalize.v
theories/Methods.v
theories/Surface.v
theories/Forms.v
theories/Format.v
theories/TextSpec.v
theories/DebugFmt.v
theories/Power.v
theories/NumTheory.v
theories/Primality.v
theories/Primes.v
theories/Fast.v
theories/Orders.v
theories/Arith.v
theories/Encoding.v
theories/Observe.v
theories/Roots.v
theories/Refute.v
theories/Safe.v
theories/Machine.v
theories/Stmts.v
theories/Cuts.v
theories/History.v
theories/Ideal.v
theories/Laws.v
theories/Exact.v
theories/Chain251.v
theories/Symbols.v
theories/Signed.v
theories/Domain.v
theories/Prop_arith.v
theories/Prop_codec.v
theories/Prop_observe.v
theories/Prop_text.v
theories/Prop_prime.v
theories/Prop_history.v
theories/EdwardsSpec.v
theories/Zp.v
theories/EdwardsAlg.v
theories/Edwards.v
theories/Lawful.v
theories/Ladder.v
theories/Prop_curve.v
theories/CurveSpec.v
theories/CheckedSpec.v
theories/TidySpec.v
theories/StepsSpec.v
theories/Curves.v
theories/CurveRefute.v
theories/Guarded.v
theories/Deviate.v
theories/Prop_shipped.v
theories/GroupLaw.v
theories/GroupSpec.v
theories/Group.v
theories/Prop_group.v
theories/GroupOrder.v
theories/MontSpec.v
theories/Mont.v
theories/MontOrder.v
theories/Prop_order.v
theories/TraceSpec.v
theories/Trace.v
theories/Prop_trace.v
theories/ShapeSpec.v
theories/Modes.v
theories/Shape.v
theories/SmallMul.v
theories/SmallAny.v
theories/Doubling.v
theories/Prop_modes.v
theories/Prop_domain.v
theories/Checked.v
theories/Steps.v
theories/Prop_checked.v
theories/Tidy.v
theories/Prop_tidy.v
theories/EverySpec.v
theories/Every.v
theories/Prop_every.v
theories/FieldLaws.v
theories/Prop_laws.v
theories/Room.v
theories/RoomEnd.v
theories/Prop_room.v
theories/Resume.v
theories/Store.v
theories/Prop_store.v
theories/WatchSpec.v
theories/Watch.v
theories/Prop_watch.v
theories/LeakSpec.v
theories/Leak.v
theories/Prop_leak.v
