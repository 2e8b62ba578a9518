package local

// run calls its argument; the errors that step returns are assigned to a variable of the function around the literal.
//
// Errors: none
func Retry() error {
	var err error
	func(step func() error) {
		err = step()
	}(Open)
	return err
}

// Errors:
//
//    - local-open --
func Open() error {
	return &Error{"local-open"}
}

// Errors:
//
//    - local-open --
//    - local-close --
func Twice() error {
	step := func() error {
		return Open()
	}
	if err := step(); err != nil {
		return err
	}
	return &Error{"local-close"}
}

// Errors:
//
//    - local-open --
//    - local-never --
func Wrong() error {
	return Twice()
}

type Error struct {
	TheCode string
}

func (e *Error) Code() string               { return e.TheCode }
func (e *Error) Message() string            { return e.TheCode }
func (e *Error) Details() map[string]string { return nil }
func (e *Error) Cause() error               { return nil }
func (e *Error) Error() string              { return e.Message() }
